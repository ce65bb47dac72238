(** Proofs about predictive formats: what Nikon's maker note says. *)
From Coq Require Import String ZArith List Bool Lia ZifyBool ZifyNat.
From Verif Require Import Base Bytes Pumps Huffman Packed Lookup Tiff Decoder Dec_Pred Dec_Nef Spec_Bits Spec_Pump Spec_Stream Spec_Image Spec_Huffman Spec_Ljpeg Spec_Pred Spec_Curve Spec_Nikon
  P_Base P_Bits P_Lookup P_Pumps P_Huff4 P_Huff5 P_Huff6 P_Ljpeg1 P_Ljpeg2 P_Ljpeg4 P_Pred1 P_Pred2 P_Pred3 P_Pred4 P_Pred7.
Import ListNotations.
Local Open Scope Z_scope.
Ltac Zify.zify_post_hook ::= Z.div_mod_to_equations.

Lemma nikon_good : forall dbg prec a b, good_code dbg prec (nikon_code a b).
Proof.
  intros dbg prec a b. apply plain_good.
  - split; [destruct a, b; reflexivity|]. split; [apply Forall_forall; intros x Hx; destruct a, b; cbn in Hx; lia|].
    split; [apply Nat.leb_le; destruct a, b; reflexivity|destruct a, b; vm_compute; discriminate].
  - split; [destruct a, b; reflexivity|]. apply Forall_forall. intros x Hx. destruct a, b; cbn in Hx; lia.
  - destruct a, b; reflexivity.
  - destruct a, b; cbn; lia.
Qed.
Definition bits_of (bits14 : bool) : Z := if bits14 then 14 else 12.
Lemma nikon_words : forall a b d, Z.abs d < 2 ^ bits_of a -> -32768 <= d <= 32767 /\ has_word (bits_of a) (nikon_code a b) d.
Proof.
  intros a b d H. split; [destruct a; cbn in H; lia|].
  assert (C : (category d <= Z.to_nat (bits_of a))%nat) by (apply le_category; destruct a; exact H).
  assert (HW : forall n, (n <= Z.to_nat (bits_of a))%nat -> In (Z.of_nat n) (hc_syms (nikon_code a b)) /\ decodable (bits_of a) (lengths (hc_counts (nikon_code a b))) (category_word (nikon_code a b) n)).
  { clear. intros n Hn. destruct a; cbn in Hn.
    - do 15 (destruct n as [|n]; [split; [destruct b; cbn; tauto|]; destruct b; first [left; vm_compute; lia|right; split; [vm_compute; discriminate|intros [X _]; vm_compute in X; discriminate]]|]). lia.
    - do 13 (destruct n as [|n]; [split; [destruct b; cbn; tauto|]; destruct b; first [left; vm_compute; lia|right; split; [vm_compute; discriminate|intros [X _]; vm_compute in X; discriminate]]|]). lia. }
  exact (HW _ C).
Qed.

Section Meta.
Context {M : Mode}.
Definition nikon_select (a b : bool) : Z := (if b then 2 else 0) + (if a then 3 else 0).
Lemma nikon_table : forall a b, exists t, nef_hufftable (nikon_select a b) (bits_of a) = Ok t /\
  codes MSB t (code_of (nikon_code a b)) (fun d => -32768 <= d <= 32767 /\ has_word (bits_of a) (nikon_code a b) d).
Proof.
  intros a b. unfold nef_hufftable.
  assert (Hp : 0 <= bits_of a <= 16) by (destruct a; cbn; lia).
  destruct (tree_codes (nikon_code a b) (repeat 0 (if a then 1 else if b then 3 else 2)) (bits_of a) Hp (nikon_good debug (bits_of a) a b)) as [t [E C]].
  exists t. split; [|exact C]. rewrite <- E. destruct a, b; reflexivity.
Qed.

Lemma get16 : forall e buf pos v s, 0 <= v < 65536 -> At buf pos (two_bytes e v ++ s) ->
  bs_get_u16 (mkbs buf pos e) = Ok (v, mkbs buf (pos + 2) e) /\ At buf (pos + 2) s.
Proof.
  intros e buf pos v s Hv H. destruct (At_two e buf pos v s Hv H) as [E A]. split; [|exact A].
  unfold bs_get_u16, bs_peek_u16. cbn [bsend bsbuf bspos]. rewrite E. reflexivity.
Qed.
Lemma flat_points : forall (f : Z -> list Z) l, flat_map f l = flat_map (fun i => f (Spec_Curve.at_ l i)) (zrange 0 (zlen l)).
Proof.
  intros f l. transitivity (flat_map f (map (Spec_Curve.at_ l) (zrange 0 (zlen l)))).
  - f_equal. apply nth_ext with (d := 0) (d' := 0).
    + rewrite map_length, zrange_length. unfold zlen. lia.
    + intros n Hn. rewrite (nth_indep (map (Spec_Curve.at_ l) (zrange 0 (zlen l))) 0 (Spec_Curve.at_ l 0)) by (rewrite map_length, zrange_length; unfold zlen; lia).
      rewrite map_nth, zrange_nth by (unfold zlen; lia). unfold Spec_Curve.at_. f_equal. lia.
  - rewrite !flat_map_concat_map, map_map. reflexivity.
Qed.
Lemma slice_values : forall (v l : list Z), zlen l <= zlen v -> (forall i, 0 <= i < zlen l -> znth v i = Spec_Curve.at_ l i) -> slice v 0 (zlen l) = Ok l.
Proof.
  intros v l Hl H. pose proof (zlen_nonneg l). rewrite slice_ok by lia. f_equal. change (Z.to_nat 0) with 0%nat. cbn [skipn]. rewrite Z.sub_0_r.
  apply nth_ext with (d := 0) (d' := 0).
  - rewrite firstn_length. unfold zlen in *. lia.
  - intros n Hn. rewrite firstn_length in Hn. rewrite nth_firstn' by lia. specialize (H (Z.of_nat n) ltac:(unfold zlen in *; lia)).
    unfold znth, Spec_Curve.at_ in H. rewrite Nat2Z.id in H. exact H.
Qed.

(** The points of the curve. *)
Lemma plain_ok : forall e data pos points more base, samples points -> zlen points <= zlen base -> base = zrange 0 65536 ->
  At data pos (flat_map (two_bytes e) points ++ more) ->
  exists v, nef_points_plain (zlen points) (mkbs data pos e) = Ok v /\ zlen v = zlen base /\ forall i, 0 <= i < zlen points -> znth v i = Spec_Curve.at_ points i.
Proof.
  intros e data pos points more base Hs Hl Eb HA. unfold nef_points_plain. rewrite <- Eb. rewrite flat_points in HA.
  destruct (read_array bs_get_u16 e 2 (two_bytes e) (Spec_Curve.at_ points) (zlen points)) with (buf := data) (pos := pos) (s := more) (v := base) as [v [p' [E [L [V _]]]]].
  - intros buf p i s Hi A. apply get16; [|exact A]. apply at_sample; [exact Hs|exact Hi].
  - pose proof (zlen_nonneg points). lia.
  - exact HA.
  - rewrite E. cbn [bind]. exists v. split; [reflexivity|]. split; [exact L|exact V].
Qed.

Definition line (points : list Z) (step i : Z) : Z :=
  (Spec_Curve.at_ points (i / step) * (step - i mod step) + Spec_Curve.at_ points (i / step + 1) * (i mod step)) / step.
Lemma line_sample : forall points step i, samples points -> 0 < step -> 0 <= i < step * (zlen points - 1) -> 0 <= line points step i < 65536.
Proof.
  intros points step i Hs Hp Hi. unfold line.
  assert (Q : 0 <= i / step < zlen points - 1) by (split; [apply Z.div_pos; lia|apply Z.div_lt_upper_bound; lia]).
  assert (R : 0 <= i mod step < step) by (apply Z.mod_pos_bound; lia).
  pose proof (at_sample points (i / step) Hs ltac:(unfold zlen in *; lia)) as A. pose proof (at_sample points (i / step + 1) Hs ltac:(unfold zlen in *; lia)) as B.
  set (a := Spec_Curve.at_ points (i / step)) in *. set (b := Spec_Curve.at_ points (i / step + 1)) in *. set (m := i mod step) in *. clearbody a b m. clear Q Hi.
  split; [apply Z.div_pos; nia|apply Z.div_lt_upper_bound; nia].
Qed.
Lemma line_point : forall points step k, 0 < step -> line points step (k * step) = Spec_Curve.at_ points k.
Proof.
  intros points step k Hp. unfold line. rewrite Z.mod_mul, Z.div_mul by lia. rewrite Z.sub_0_r, Z.mul_0_r, Z.add_0_r. apply Z.div_mul. lia.
Qed.
Lemma split_ok : forall e data pos points more base step max, samples points -> 0 < step -> step * (zlen points - 1) = max -> max < zlen base -> 0 < max ->
  base = zrange 0 65536 -> At data pos (flat_map (two_bytes e) points ++ more) ->
  exists v, nef_points_split (zlen points) step max (mkbs data pos e) = Ok v /\ zlen v = zlen base /\
    forall i, 0 <= i < max -> znth v i = line points step i.
Proof.
  intros e data pos points more base step max Hs Hp Hmax Hl Hm Eb HA. unfold nef_points_split. rewrite <- Eb. rewrite flat_points in HA.
  set (n := zlen points) in *. assert (Hn : 1 < n) by nia.
  match goal with |- context [rfold ?g (zrange 0 n) ?st] => destruct (rfold_zrange g (fun i '(v', b) => exists pos', b = mkbs data pos' e /\ zlen v' = zlen base /\
      (forall j, 0 <= j < i -> znth v' (j * step) = Spec_Curve.at_ points j) /\ At data pos' (flat_map (fun i => two_bytes e (Spec_Curve.at_ points i)) (zrange i n) ++ more)) 0 n st) as [[v' b'] [E [pos' [Eb' [L [V A]]]]]] end.
  - lia.
  - exists pos. split; [reflexivity|]. split; [reflexivity|]. split; [intros; lia|exact HA].
  - intros i [v1 b1] Hi [pos1 [-> [L1 [V1 A1]]]]. rewrite (zrange_cons i) in A1 by lia. cbn [flat_map] in A1. rewrite <- app_assoc in A1.
    destruct (get16 e data pos1 (Spec_Curve.at_ points i) _ (at_sample points i Hs Hi) A1) as [E1 A2]. rewrite E1. cbn [bind].
    assert (Hi' : 0 <= i * step <= max) by nia.
    rewrite upd_ok by lia. cbn [bind]. eexists. split; [reflexivity|]. cbv beta iota.
    exists (pos1 + 2). split; [reflexivity|]. split; [rewrite zlen_upd_nat; exact L1|]. split; [|exact A2].
    intros j Hj. rewrite znth_upd_nat by nia. destruct (j * step =? i * step) eqn:Q; [f_equal; nia|apply V1; nia].
  - rewrite E. cbn [bind]. clear E A Eb' HA.
    match goal with |- context [rfold ?g (zrange 0 max) ?st] => destruct (rfold_zrange g (fun i w => zlen w = zlen base /\
      (forall j, 0 <= j < i -> znth w j = line points step j) /\ (forall k, 0 <= k < n -> znth w (k * step) = Spec_Curve.at_ points k)) 0 max v') as [w [E [L' [W _]]]] end.
    + lia.
    + split; [exact L|]. split; [intros; lia|exact V].
    + intros i w Hi [Lw [W1 W2]].
      assert (Q : 0 <= i / step < n - 1) by (split; [apply Z.div_pos; lia|apply Z.div_lt_upper_bound; lia]).
      assert (R : 0 <= i mod step < step) by (apply Z.mod_pos_bound; lia). pose proof (Z.div_mod i step ltac:(lia)) as D.
      replace (i - i mod step) with (i / step * step) by lia. replace (i / step * step + step) with ((i / step + 1) * step) by lia.
      rewrite !get_ok by nia. cbn [bind]. fold (znth w (i / step * step)). fold (znth w ((i / step + 1) * step)). rewrite !W2 by lia.
      fold (line points step i). pose proof (line_sample points step i Hs Hp ltac:(fold n; lia)) as S1.
      rewrite as_u16_sample by exact S1. rewrite upd_ok by lia. eexists. split; [reflexivity|]. cbv beta. split; [rewrite zlen_upd_nat; exact Lw|]. split.
      * intros j Hj. rewrite znth_upd_nat by lia. destruct (j =? i) eqn:Q1; [f_equal; lia|apply W1; lia].
      * intros k Hk. rewrite znth_upd_nat by nia. destruct (k * step =? i) eqn:Q1; [|apply W2; exact Hk].
        assert (k * step = i) as <- by lia. apply line_point. exact Hp.
    + rewrite E. exists w. split; [reflexivity|]. split; [exact L'|exact W].
Qed.
End Meta.
