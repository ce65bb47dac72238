(** Proofs about Canon CRW: pixels. *)
From Coq Require Import String ZArith List Bool Lia ZifyBool ZifyNat.
From Verif Require Import Base Bytes Pumps Threads Packed Ciff Camera Decoder Dec_Crw Spec_Bits Spec_Stream Spec_Image Spec_Huffman Spec_Ljpeg Spec_Crw
  P_Base P_Bits P_Threads P_Pumps P_Huff4 P_Huff5 P_Ljpeg1 P_Ljpeg2 P_Sensor3 P_Pred1 P_Crw2.
Import ListNotations.
Local Open Scope Z_scope.
Ltac Zify.zify_post_hook ::= Z.div_mod_to_equations.

Lemma next_mod : forall k w, 0 < w -> 0 <= k -> (k mod w = w - 1 /\ (k + 1) mod w = 0) \/ (k mod w < w - 1 /\ (k + 1) mod w = k mod w + 1).
Proof.
  intros k w Hw Hk. pose proof (Z.mod_pos_bound k w Hw) as B. pose proof (Z.div_mod k w ltac:(lia)) as D.
  destruct (Z.eq_dec (k mod w) (w - 1)) as [E|E]; [left|right]; (split; [lia|]).
  - symmetry. apply (Z.mod_unique_pos _ _ (k / w + 1)); lia.
  - symmetry. apply (Z.mod_unique_pos _ _ (k / w)); lia.
Qed.

Section Pixels.
Context {M : Mode}.
Variables (pic : Z -> Z -> Z) (w h : Z).
Hypothesis Hw : 0 < w.
Hypothesis Hh : 0 <= h.
Hypothesis Hs : forall r c, 0 <= r < h -> 0 <= c < w -> sample (pic r c).
Notation P k := (numbered pic w k).
Notation D k := (canon_step pic w k).
Notation before k := (if k mod w <? 2 then 512 else P (k - 2)).

Lemma P_sample : forall k, 0 <= k < w * h -> sample (P k).
Proof.
  intros k Hk. unfold numbered. apply Hs; [|apply Z.mod_pos_bound; lia]. split; [apply Z.div_pos; lia|]. apply Z.div_lt_upper_bound; lia.
Qed.
Lemma before_sample : forall k, 0 <= k < w * h -> sample (before k).
Proof.
  intros k Hk. destruct (k mod w <? 2) eqn:E; [unfold sample; lia|]. apply P_sample. pose proof (Z.mod_le k w ltac:(lia) Hw). lia.
Qed.
Lemma D_small : forall k, 0 <= k < w * h -> - 65536 < D k < 65536.
Proof. intros k Hk. pose proof (P_sample k Hk). pose proof (before_sample k Hk). unfold canon_step, sample in *. lia. Qed.

(** The predictors before pixel [k]. *)
Definition bases (k : Z) (base : list Z) : Prop :=
  exists b0 b1, base = [b0; b1] /\ (k mod w <> 0 ->
    (if k mod 2 =? 0 then b0 else b1) = before k /\ ((k + 1) mod w <> 0 -> (if k mod 2 =? 0 then b1 else b0) = before (k + 1))).
Lemma bases_next : forall k base, 0 <= k -> bases k base ->
  exists b0 b1, (if k mod w =? 0 then [512; 512] else base) = [b0; b1] /\ (if k mod 2 =? 0 then b0 else b1) = before k /\
    bases (k + 1) (if k mod 2 =? 0 then [P k; b1] else [b0; P k]).
Proof.
  intros k base Hk [b0 [b1 [-> B]]].
  assert (G : forall c0 c1, ((k + 1) mod w <> 0 -> (if k mod 2 =? 0 then c1 else c0) = before (k + 1)) ->
    bases (k + 1) (if k mod 2 =? 0 then [P k; c1] else [c0; P k])).
  { intros c0 c1 C. exists (if k mod 2 =? 0 then P k else c0), (if k mod 2 =? 0 then c1 else P k).
    split; [destruct (k mod 2 =? 0); reflexivity|]. intros N1. specialize (C N1).
    assert (A : k + 1 + 1 - 2 = k) by lia.
    assert (C2 : (k + 1 + 1) mod w <> 0 -> (k + 1 + 1) mod w <? 2 = false).
    { intros N2. pose proof (Z.mod_pos_bound k w Hw). destruct (next_mod k w Hw Hk) as [[X1 X2]|[X1 X2]]; [lia|].
      destruct (next_mod (k + 1) w Hw ltac:(lia)) as [[Y1 Y2]|[Y1 Y2]]; lia. }
    destruct (k mod 2 =? 0) eqn:E.
    - replace ((k + 1) mod 2 =? 0) with false by lia. split; [exact C|]. intros N2. rewrite (C2 N2), A. reflexivity.
    - replace ((k + 1) mod 2 =? 0) with true by lia. split; [exact C|]. intros N2. rewrite (C2 N2), A. reflexivity. }
  destruct (k mod w =? 0) eqn:E.
  - exists 512, 512. split; [reflexivity|]. split; [replace (k mod w <? 2) with true by lia; destruct (k mod 2 =? 0); reflexivity|].
    apply G. intros N. destruct (next_mod k w Hw Hk) as [[X1 X2]|[X1 X2]]; [lia|]. replace ((k + 1) mod w <? 2) with true by lia. destruct (k mod 2 =? 0); reflexivity.
  - destruct (B ltac:(lia)) as [B1 B2]. exists b0, b1. split; [reflexivity|]. split; [exact B1|]. apply G. exact B2.
Qed.

Lemma pixels_ok : forall b base d, 0 <= b -> 64 * b + 64 <= w * h -> bases (64 * b) base -> zlen d = 64 ->
  (forall i, 0 <= i < 64 -> znth d i = D (64 * b + i)) ->
  exists base' out, crw_pixels w d (base, 64 * b, zeros 64) = Ok (base', 64 * b + 64, out) /\ bases (64 * b + 64) base' /\
    zlen out = 64 /\ forall i, 0 <= i < 64 -> znth out i = P (64 * b + i).
Proof.
  intros b base d Hb Hr B Ld Vd. unfold crw_pixels.
  destruct (rfold_zrange (fun i '(base, pnum, pixout) =>
    if w =? 0 then Panic else
    let base := if pnum mod w =? 0 then [512; 512] else base in
    b <- get base (Z.land i 1) ;; d <- get d i ;; b <- i32add b d ;;
    base <- upd base (Z.land i 1) b ;;
    pixout <- upd pixout i (as_u16 b) ;;
    Ok (base, pnum + 1, pixout))
    (fun i '(base, pnum, out) => pnum = 64 * b + i /\ bases (64 * b + i) base /\ zlen out = 64 /\ forall j, 0 <= j < i -> znth out j = P (64 * b + j))
    0 64 (base, 64 * b, zeros 64)) as [[[base' n] out] [E [-> [B' [L V]]]]].
  - lia.
  - split; [lia|]. split; [rewrite Z.add_0_r; exact B|]. split; [reflexivity|]. intros; lia.
  - intros i [[base1 n] out] Hi [-> [B1 [L V]]]. replace (w =? 0) with false by lia. cbv zeta.
    destruct (bases_next (64 * b + i) base1 ltac:(lia) B1) as [b0 [b1 [-> [Eb Bn]]]].
    rewrite land1. replace ((64 * b + i) mod 2) with (i mod 2) in Eb, Bn by lia.
    set (k := 64 * b + i) in *. pose proof (P_sample k ltac:(lia)) as S1. pose proof (before_sample k ltac:(lia)) as S2.
    rewrite (get_ok d i) by lia. rewrite Vd by lia. fold k.
    assert (Ea : i32add (before k) (D k) = Ok (P k)).
    { unfold i32add. unfold sample in *. rewrite arith_s_ok; unfold canon_step; [f_equal; lia|]. change (2 ^ (32 - 1)) with 2147483648. lia. }
    assert (Eu : upd out i (as_u16 (P k)) = Ok (upd_nat out (Z.to_nat i) (P k))) by (rewrite upd_ok by lia; rewrite as_u16_sample by exact S1; reflexivity).
    assert (Vn : forall j, 0 <= j < i + 1 -> znth (upd_nat out (Z.to_nat i) (P k)) j = P (64 * b + j)).
    { intros j Hj. rewrite znth_upd_nat by lia. destruct (j =? i) eqn:Q; [replace j with i by lia; reflexivity|]. apply V. lia. }
    replace (64 * b + (i + 1)) with (k + 1) by (unfold k; lia).
    assert (i mod 2 = 0 \/ i mod 2 = 1) as [E2|E2] by lia; rewrite E2 in *; cbn [Z.eqb] in Eb, Bn.
    + change (get [b0; b1] 0) with (Ok b0). cbn [bind]. rewrite Eb, Ea. cbn [bind].
      change (upd [before k; b1] 0 (P k)) with (Ok [P k; b1]). cbn [bind]. rewrite Eu. cbn [bind]. eexists. split; [reflexivity|].
      split; [reflexivity|]. split; [exact Bn|]. split; [rewrite zlen_upd_nat; exact L|exact Vn].
    + change (get [b0; b1] 1) with (Ok b1). cbn [bind]. rewrite Eb, Ea. cbn [bind].
      change (upd [b0; before k] 1 (P k)) with (Ok [b0; P k]). cbn [bind]. rewrite Eu. cbn [bind]. eexists. split; [reflexivity|].
      split; [reflexivity|]. split; [exact Bn|]. split; [rewrite zlen_upd_nat; exact L|exact Vn].
  - exists base', out. split; [exact E|]. split; [exact B'|]. split; [exact L|exact V].
Qed.

Section High.
Variables (dt : Z) (ts : crwtable * crwtable) (src : list Z) (pad : nat) (rest : list bool).
Hypothesis H1 : reads (fst ts) (canon_first dt).
Hypothesis H2 : reads (snd ts) (canon_second dt).
Hypothesis A1 : has_all (canon_first dt) (zrange 0 12) = true.
Hypothesis A2 : has_all (canon_second dt) pairs = true.
Hypothesis Hm : (w * h) mod 64 = 0.
Hypothesis Hf : canon_fits pic w h.
Hypothesis Hb : readable JPEG src.
Hypothesis Hst : stream JPEG src pad = canon_coded dt pic w h ++ rest.
Hypothesis Hrest : (16 <= length rest)%nat.
Notation N := (w * h / 64).

Lemma crw_high_ok : crw_high ts src w h = Ok (map (fun k => P k) (zrange 0 (w * h))).
Proof.
  assert (HN : w * h = 64 * N) by lia. assert (HN0 : 0 <= N) by (assert (0 <= w * h) by (apply Z.mul_nonneg_nonneg; lia); lia).
  unfold crw_high.
  assert (Ec : chunks 64 (zeros (w * h)) = map (fun _ : Z => zeros 64) (zrange 0 N)).
  { unfold zeros at 1. replace (Z.to_nat (w * h)) with (64 * Z.to_nat N)%nat by lia. rewrite chunks_repeat by lia.
    change (repeat 0 64) with (zeros 64). replace (Z.to_nat N) with (length (zrange 0 N)) by (rewrite zrange_length; lia).
    induction (zrange 0 N) as [|x l IH]; [reflexivity|]. cbn [length repeat map]. f_equal. exact IH. }
  rewrite Ec, rfold_map.
  destruct (rfold_zrange (fun (_ : Z) '(p, carry, base, pnum, done) =>
      '(diffbuf, p) <- crw_block 65 ts 0 (zeros 64) p ;;
      d <- get diffbuf 0 ;; carry <- i32add d carry ;; diffbuf <- upd diffbuf 0 carry ;;
      '(base, pnum, pixout) <- crw_pixels w diffbuf (base, pnum, zeros 64) ;;
      Ok (p, carry, base, pnum, done ++ pixout))
    (fun b '(p, carry, base, pnum, done) => pnum = 64 * b /\ carry = (if b =? 0 then 0 else D (64 * (b - 1))) /\ bases (64 * b) base /\
      done = map (fun k => P k) (zrange 0 (64 * b)) /\ Repr JPEG p (flat_map (canon_block dt pic w) (zrange b N) ++ rest))
    0 N (pump_new src, 0, [0; 0], 0, [])) as [[[[[p carry] base] pnum] done] [E [_ [_ [_ [-> _]]]]]].
  - exact HN0.
  - split; [lia|]. split; [reflexivity|]. split.
    + exists 0, 0. split; [reflexivity|]. intros X. exfalso. apply X. apply Z.mod_0_l. lia.
    + split; [reflexivity|]. pose proof (Repr_new JPEG src pad Hb) as R. rewrite Hst in R. unfold canon_coded in R. rewrite upto_zrange in R. exact R.
  - intros b [[[[p carry] base] pnum] done] Hbr [-> [-> [B [-> R]]]].
    rewrite (zrange_cons b) in R by lia. cbn [flat_map] in R. rewrite <- app_assoc in R. unfold canon_block at 1 in R.
    destruct Hf as [_ [F1 F2]].
    set (ds := map (fun i => D (64 * b + 1 + i)) (upto 63)) in *.
    assert (Lds : zlen ds = 63) by (unfold ds; rewrite zlen_map; reflexivity).
    assert (Vds : forall i, 0 <= i < 63 -> znth ds i = D (64 * b + 1 + i)).
    { intros i Hi. unfold ds, znth. rewrite nth_indep with (d' := D (64 * b + 1 + 0)) by (rewrite map_length; unfold upto; rewrite map_length, seq_length; lia).
      rewrite (map_nth (fun i => D (64 * b + 1 + i))). do 2 f_equal. unfold upto. rewrite <- (Nat2Z.id (Z.to_nat i)). change 0 with (Z.of_nat 0) at 1.
      rewrite map_nth, seq_nth by lia. lia. }
    destruct (block_read ts (canon_first dt) (canon_second dt) H1 H2 A1 A2 64 (canon_first_step pic w b) ds p (flat_map (canon_block dt pic w) (zrange (b + 1) N) ++ rest)) as [p1 [E1 R1]].
    + reflexivity.
    + rewrite app_length. lia.
    + exact Lds.
    + apply F1. lia.
    + intros x Hx. apply in_map_iff in Hx. destruct Hx as [i [<- Hi]]. rewrite upto_zrange in Hi. apply zrange_In in Hi. apply F2; lia.
    + exact R.
    + rewrite E1. cbn [bind]. change (get (canon_first_step pic w b :: ds) 0) with (Ok (canon_first_step pic w b)) || rewrite get_ok, znth_cons_0 by (rewrite zlen_cons; lia). cbn [bind].
      assert (Ea : i32add (canon_first_step pic w b) (if b =? 0 then 0 else D (64 * (b - 1))) = Ok (D (64 * b))).
      { pose proof (D_small (64 * b) ltac:(lia)). unfold i32add, canon_first_step. rewrite arith_s_ok; [f_equal; lia|]. change (2 ^ (32 - 1)) with 2147483648. lia. }
      rewrite Ea. cbn [bind]. rewrite upd_ok by (rewrite zlen_cons; lia). cbn [bind Z.to_nat upd_nat].
      destruct (pixels_ok b base (D (64 * b) :: ds) ltac:(lia) ltac:(lia) B) as [base' [out [E2 [B2 [L2 V2]]]]].
      * rewrite zlen_cons. lia.
      * intros i Hi. destruct (i =? 0) eqn:Q; [replace i with 0 by lia; rewrite znth_cons_0, Z.add_0_r; reflexivity|]. rewrite znth_cons_S by lia. rewrite Vds by lia. f_equal. lia.
      * rewrite E2. cbn [bind]. eexists. split; [reflexivity|]. split; [lia|]. split.
        -- replace (b + 1 =? 0) with false by lia. do 2 f_equal. lia.
        -- replace (64 * (b + 1)) with (64 * b + 64) by lia. split; [exact B2|]. split; [|exact R1].
           rewrite (zrange_split 0 (64 * b) (64 * b + 64)) by lia. rewrite map_app. f_equal. apply list_eq_znth.
           ++ rewrite zlen_map. unfold zlen at 2. rewrite zrange_length. lia.
           ++ intros i Hi. rewrite V2 by lia. unfold znth. rewrite nth_indep with (d' := P 0) by (rewrite map_length, zrange_length; lia).
              rewrite (map_nth (fun k => P k)). rewrite zrange_nth by lia. f_equal. lia.
  - rewrite E. cbn [bind]. rewrite <- HN. reflexivity.
Qed.
End High.
End Pixels.
