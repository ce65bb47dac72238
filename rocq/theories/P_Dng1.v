(** DNG files (C54): what the directory says. *)
From Coq Require Import String Ascii ZArith List Bool Reals Lia Lra.
From Flocq Require Import Core BinarySingleNaN.
From Verif Require Import Base Num F32 Bytes Pumps Cfa Packed Tiff Transform Image Camera Clients Decoder Dec_Ljpeg Dispatch.
From Verif Require Import Spec_Bits Spec_Image Spec_Stream Spec_Cfa Spec_Tiff Spec_Camera Spec_Known Spec_Huffman Spec_Ljpeg Spec_Meta Spec_File Spec_Dng.
From Verif Require Import P_Base P_Bits P_F32 P_Cfa P_Cfa2 P_Tiff3 P_Tiff5 P_Black P_Meta1 P_Meta2 P_File1 P_File2 P_File4.
Import ListNotations.
Local Open Scope Z_scope.

(** One over a fraction *)
Lemma one_exact : is_finite (flit 1 1) = true /\ B2R (flit 1 1) = 1%R.
Proof.
  destruct (of_exact 1 ltac:(lia)) as [Fa [Va _]].
  assert (Q : (B2R (f32_of 1) / B2R (f32_of 1))%R = 1%R) by (rewrite Va; unfold Rdiv; rewrite Rinv_1; apply Rmult_1_r).
  destruct (div_val (f32_of 1) (f32_of 1) Fa) as [F V]; [rewrite Va; apply not_0_IZR; lia|rewrite Q, Rabs_R1; apply IZR_le; lia|].
  split; [exact F|]. unfold flit, fdiv. rewrite V, Q. apply RN_id. apply (gf_int 1). lia.
Qed.
Lemma near_rel : forall x a b, 0 < a <= 2 ^ 24 -> 0 < b <= 2 ^ 24 -> nearest x (IZR a / IZR b) ->
  exists e, (Rabs e <= / IZR (2 ^ 24))%R /\ B2R x = (IZR a / IZR b * (1 + e))%R.
Proof.
  intros x a b Ha Hb [F H]. assert (Na : (IZR a <> 0)%R) by (apply not_0_IZR; lia). assert (Nb : (IZR b <> 0)%R) by (apply not_0_IZR; lia).
  destruct (of_exact a ltac:(lia)) as [Fa [Va _]]. destruct (of_exact b ltac:(lia)) as [_ [Vb _]].
  destruct (ratio_bounds a b ltac:(lia) ltac:(lia) ltac:(lia) ltac:(lia)) as [R1 R2].
  destruct (div_val (f32_of a) (f32_of b) Fa) as [Fq Vq]; [rewrite Vb; exact Nb|rewrite Va, Vb; eapply Rle_trans; [exact R2|apply IZR_le; lia]|].
  specialize (H _ Fq). rewrite Vq, Va, Vb in H. destruct (rn_rel (IZR a / IZR b)) as [e [E1 E2]].
  { eapply Rle_trans; [|exact R1]. change (IZR (2 ^ 40)) with 1099511627776%R. change (IZR (2 ^ 32)) with 4294967296%R. lra. }
  rewrite E2 in H. set (q := (IZR a / IZR b)%R) in *. assert (Nq : q <> 0%R) by (unfold q, Rdiv; apply Rmult_integral_contrapositive_currified; [exact Na|apply Rinv_neq_0_compat; exact Nb]).
  exists (B2R x / q - 1)%R. split.
  - replace (B2R x / q - 1)%R with ((B2R x - q) / q)%R by (field; exact Nq). unfold Rdiv. rewrite Rabs_mult, Rabs_inv.
    replace (q * (1 + e) - q)%R with (q * e)%R in H by ring. rewrite Rabs_mult in H. assert (Pq : (0 < Rabs q)%R) by (apply Rabs_pos_lt; exact Nq).
    apply Rmult_le_reg_r with (Rabs q); [exact Pq|]. rewrite Rmult_assoc, Rinv_l, Rmult_1_r by lra. eapply Rle_trans; [exact H|]. rewrite Rmult_comm. apply Rmult_le_compat_r; [lra|exact E1].
  - field. exact Nq.
Qed.
Lemma inverse_close : forall x q, moderate q -> reads_fraction x (fst q) (snd q) -> inverse (fdiv (flit 1 1) x) q.
Proof.
  intros x [a b] [Ha Hb] (_ & N & _). cbn [fst snd] in *. specialize (N ltac:(lia) ltac:(lia) ltac:(lia)). unfold inverse. cbn [fst snd].
  destruct (near_rel x a b Ha Hb N) as [e [E1 E2]]. destruct one_exact as [F1 V1].
  assert (Na : (IZR a <> 0)%R) by (apply not_0_IZR; lia). assert (Nb : (IZR b <> 0)%R) by (apply not_0_IZR; lia).
  change (IZR (2 ^ 24)) with 16777216%R in E1. assert (E0 := Rabs_le_inv _ _ E1).
  assert (Ne : (1 + e <> 0)%R) by lra.
  set (q := (IZR a / IZR b)%R) in *. assert (Nq : q <> 0%R) by (unfold q, Rdiv; apply Rmult_integral_contrapositive_currified; [exact Na|apply Rinv_neq_0_compat; exact Nb]).
  assert (I : (1 / (q * (1 + e)) = IZR b / IZR a * / (1 + e))%R) by (unfold q; field; auto).
  destruct (ratio_bounds b a ltac:(lia) ltac:(lia) ltac:(lia) ltac:(lia)) as [R1 R2].
  assert (B : (/ 2 <= Rabs (/ (1 + e)) <= 2)%R).
  { rewrite Rabs_pos_eq by (apply Rlt_le, Rinv_0_lt_compat; lra). split.
    - apply Rinv_le; lra.
    - rewrite <- (Rinv_inv 2). apply Rinv_le; lra. }
  assert (M : (Rabs (1 / (q * (1 + e))) = Rabs (IZR b / IZR a) * Rabs (/ (1 + e)))%R) by (rewrite I; apply Rabs_mult).
  assert (K : (/ IZR (2 ^ 33) <= Rabs (1 / (q * (1 + e))) <= IZR (2 ^ 33))%R).
  { rewrite M. change (IZR (2 ^ 33)) with 8589934592%R. change (IZR (2 ^ 32)) with 4294967296%R in R1, R2. nra. }
  destruct (div_val (flit 1 1) x F1) as [F V].
  { rewrite E2. apply Rmult_integral_contrapositive_currified; assumption. }
  { rewrite V1, E2. eapply Rle_trans; [apply K|]. apply IZR_le. lia. }
  split; [exact F|]. unfold fdiv. rewrite V, V1, E2. destruct (rn_rel (1 / (q * (1 + e)))) as [e3 [G1 G2]].
  { eapply Rle_trans; [|apply K]. change (IZR (2 ^ 40)) with 1099511627776%R. change (IZR (2 ^ 33)) with 8589934592%R. lra. }
  rewrite G2. replace (IZR b / IZR a)%R with (1 / q)%R by (unfold q; field; auto).
  replace (1 / (q * (1 + e)))%R with (1 * (1 + 0) / (q * (1 + e)))%R by (field; auto). apply quotient_close; auto.
  rewrite Rabs_R0. change (IZR (2 ^ 24)) with 16777216%R. lra.
Qed.

Section Any.
Context {M : Mode}.
Lemma pattern_kept : forall en vals w h, e_count en = Z.of_nat (length vals) -> (forall k v, nth_error vals k = Some v -> get_u32 en (Z.of_nat k) = Ok v) ->
  dims (length vals) = Some (w, h) -> Forall (fun v => 0 <= v <= 2) vals ->
  exists p, cfa_new_from_tag en = Ok p /\ forall row col, 0 <= row < 2 ^ 63 -> 0 <= col < 2 ^ 63 ->
     color_at p row col = Ok (nth (Z.to_nat (row mod h * w + col mod w)) vals 0).
Proof.
  intros en vals w h C V Hd Hv.
  pose proof (from_tag_name en vals C V) as N. rewrite N. set (name := string_of_list_ascii (map tag_letter vals)).
  assert (Ld : dims (String.length name) = Some (w, h)) by (unfold name; rewrite letters_length, map_length; exact Hd).
  assert (Pn : pattern_name name).
  { split; [rewrite Ld; discriminate|]. unfold known_letters, name. rewrite letters_back. intros c Hc. apply in_map_iff in Hc. destruct Hc as [v [<- Hin]].
    pose proof (proj1 (Forall_forall _ _) Hv v Hin) as B. cbv beta in B. assert (v = 0 \/ v = 1 \/ v = 2) as [Q|[Q|Q]] by lia; subst v; discriminate. }
  destruct (proj2 (cfa_new_ok_iff name) (or_intror Pn)) as [p Ep]. exists p. split; [exact Ep|]. intros row col Hr Hc.
  destruct (color_at_63 name p row col Pn Ep Hr Hc) as [v [E1 E2]]. rewrite E1. f_equal. unfold colour in E2. rewrite Ld in E2. unfold letter, name in E2. rewrite letters_back in E2.
  assert (Dp : 0 < w /\ 0 < h /\ Z.of_nat (length vals) = w * h).
  { clear - Hd. unfold dims in Hd. set (n := length vals) in *. clearbody n. do 145 (destruct n as [|n]; [try discriminate Hd; injection Hd as <- <-; cbn; lia|]). discriminate Hd. }
  destruct Dp as [D1 [D2 D3]]. pose proof (Z.mod_pos_bound row h D2) as B1. pose proof (Z.mod_pos_bound col w D1) as B2.
  set (i := row mod h * w + col mod w) in *. assert (Hi : 0 <= i < w * h) by (unfold i; nia).
  rewrite (nth_indep _ _ (tag_letter 0)) in E2 by (rewrite map_length; lia). rewrite map_nth in E2.
  assert (In (nth (Z.to_nat i) vals 0) vals) as Hin by (apply nth_In; lia).
  pose proof (proj1 (Forall_forall _ _) Hv _ Hin) as B. cbv beta in B. revert E2 B. generalize (nth (Z.to_nat i) vals 0). intros x E2 B.
  assert (x = 0 \/ x = 1 \/ x = 2) as [Q|[Q|Q]] by lia; subst x; cbn in E2; congruence.
Qed.
Lemma bytes_numbers : forall big fs root sub tag vs, Parsed big fs root sub -> In (mkfield tag 1 vs) fs -> Forall (fun v => 0 <= v <= 2) vs ->
  exists en, find_entry sub tag = Some en /\ e_count en = Z.of_nat (length vs) /\ forall k v, nth_error vs k = Some v -> get_u32 en (Z.of_nat k) = Ok v.
Proof.
  intros big fs root sub tag vs P Hf Hv. destruct (p_root _ _ _ _ P _ Hf) as (en & E1 & E2 & E3). exists en. split; [exact E2|]. split; [apply E3|].
  intros k v Hk. apply (get_u32_holds big (mkfield tag 1 vs) en k v); [reflexivity| |exact E3|exact Hk]. cbn [f_typ f_vals type_size]. eapply Forall_impl; [|exact Hv]. cbv beta. intros x Hx. change (256 ^ 1) with 256. lia.
Qed.
Lemma signed_fractions_found : forall big fs root sub tag qs, Parsed big fs root sub -> has_signed_fractions big fs tag qs ->
  exists en, find_entry root tag = Some en /\ e_count en = Z.of_nat (length qs) /\
    forall k a b, nth_error qs k = Some (a, b) -> exists x, get_f32 en (Z.of_nat k) = Ok x /\ reads_fraction x a b.
Proof.
  intros big fs root sub tag qs P [Hf Hq]. destruct (p_root _ _ _ _ P _ Hf) as (en & E1 & E2 & E3). exists en. split; [exact E1|]. split.
  - destruct E3 as (_ & _ & C & _). rewrite C. unfold zlen. cbn [f_vals]. rewrite map_length. reflexivity.
  - intros k a b Hk. eapply get_f32_holds; [exact E3|reflexivity| |exact Hk]. cbn [f_typ].
    eapply Forall_impl; [|exact Hq]. intros q [Q1 Q2]. split; right; auto.
Qed.

Variables (big : bool) (fs : list field) (w h cpp comp : Z) (o : orientation) (m : dng_meta) (root sub : ifd).
Hypothesis P : Parsed big fs root sub.
Hypothesis D : dng_fields big fs w h cpp comp o m.
Lemma full_read : comp = 1 \/ comp = 7 -> dng_full (find_ifds_with_tag root T_Compression) = Ok [sub; sub].
Proof.
  intros Hc. pose proof (d_compression _ _ _ _ _ _ _ _ D) as Tc. rewrite (p_ifds _ _ _ _ P _ (number_tag _ _ _ Tc)).
  destruct (number_read _ _ _ _ _ _ P Tc) as (en & _ & E2 & _ & E3). cbn [dng_full]. unfold unwrap_entry. rewrite E2. cbn [bind]. rewrite E3. cbn [bind].
  assert (K : (match find_entry sub T_NewSubFileType with Some en => v <- get_u32 en 0 ;; Ok (negb ((v &&& 1) =? 0)) | None => Ok false end) = Ok false).
  { destruct (d_kind _ _ _ _ _ _ _ _ D) as [K|(v & K & Ev)].
    - rewrite (proj2 (p_none _ _ _ _ P _ K)). reflexivity.
    - destruct (number_read _ _ _ _ _ _ P K) as (en' & _ & N2 & _ & N3). rewrite N2, N3. cbn [bind]. do 2 f_equal.
      change (v &&& 1) with (Z.land v (Z.ones 1)). rewrite Z.land_ones by lia. change (2 ^ 1) with 2. rewrite even_mod by exact Ev. reflexivity. }
  rewrite K. cbn [bind negb andb]. destruct Hc as [->| ->]; reflexivity.
Qed.
Lemma wb_read : exists wb, dng_wb root = Ok wb /\ e3 wb = B754_nan /\
  match m_neutral m with
  | Some (a, b, c) => inverse (e0 wb) a /\ inverse (e1 wb) b /\ inverse (e2 wb) c
  | None => e0 wb = B754_nan /\ e1 wb = B754_nan /\ e2 wb = B754_nan
  end.
Proof.
  pose proof (d_neutral _ _ _ _ _ _ _ _ D) as N. unfold dng_wb. destruct (m_neutral m) as [[[qa qb] qc]|].
  - destruct N as [N1 N2]. cbn [list3] in *. destruct (fractions_found _ _ _ _ _ _ P N1) as (en & E1 & _ & _ & E3). rewrite E1.
    pose proof (Forall_inv N2) as Ma. pose proof (Forall_inv (Forall_inv_tail N2)) as Mb. pose proof (Forall_inv (Forall_inv_tail (Forall_inv_tail N2))) as Mc.
    destruct qa as [a1 a2], qb as [b1 b2], qc as [c1 c2].
    destruct (E3 0%nat _ _ eq_refl) as (x & X1 & X2). destruct (E3 1%nat _ _ eq_refl) as (y & Y1 & Y2). destruct (E3 2%nat _ _ eq_refl) as (z & Z1 & Z2).
    change (Z.of_nat 0) with 0 in X1. change (Z.of_nat 1) with 1 in Y1. change (Z.of_nat 2) with 2 in Z1. rewrite X1, Y1. cbn [bind]. rewrite Z1. cbn [bind].
    eexists. split; [reflexivity|]. cbn [e0 e1 e2 e3]. split; [reflexivity|]. split; [|split]; apply inverse_close; assumption.
  - rewrite (proj1 (p_none _ _ _ _ P _ N)). eexists. split; [reflexivity|]. repeat split.
Qed.
Lemma blacks_read : dng_blacks sub = Ok (match m_black m with Some [a; b; c; d] => V4 a b c d | Some (a :: _) => all4 a | _ => all4 0 end).
Proof.
  pose proof (d_black _ _ _ _ _ _ _ _ D) as N. unfold dng_blacks. destruct (m_black m) as [vs|].
  - destruct N as (N1 & N2 & N3). destruct (numbers_found _ _ _ _ _ _ P N1) as (en & _ & E1 & E2 & E3). rewrite E1, E2.
    destruct N2 as [N2|N2].
    + destruct vs as [|a [|? ?]]; try discriminate N2. destruct (E3 0%nat a eq_refl) as (_ & G & _). change (Z.of_nat 0) with 0 in G. cbn [length Z.of_nat Z.ltb Z.compare Pos.of_succ_nat Pos.compare Pos.compare_cont]. rewrite G. cbn [bind].
      rewrite level_exact by exact (Forall_inv N3). reflexivity.
    + destruct vs as [|a [|b [|c [|d [|? ?]]]]]; try discriminate N2.
      destruct (E3 0%nat a eq_refl) as (_ & G0 & _). destruct (E3 1%nat b eq_refl) as (_ & G1 & _). destruct (E3 2%nat c eq_refl) as (_ & G2 & _). destruct (E3 3%nat d eq_refl) as (_ & G3 & _).
      change (Z.of_nat 0) with 0 in G0. change (Z.of_nat 1) with 1 in G1. change (Z.of_nat 2) with 2 in G2. change (Z.of_nat 3) with 3 in G3.
      change (Z.of_nat (length [a; b; c; d]) <? 4) with false. cbv iota. rewrite G0. cbn [bind]. rewrite G1. cbn [bind]. rewrite G2. cbn [bind]. rewrite G3. cbn [bind].
      assert (S : forall x, In x [a; b; c; d] -> f32_to 0 65535 (f32_of x) = x) by (intros x Hx; apply level_exact; exact (proj1 (Forall_forall _ _) N3 x Hx)).
      rewrite !S by (cbn; auto). reflexivity.
  - rewrite (proj2 (p_none _ _ _ _ P _ N)). reflexivity.
Qed.
Lemma whites_read : dng_whites sub = Ok (all4 (m_white m)).
Proof.
  destruct (d_white _ _ _ _ _ _ _ _ D) as [N1 N2]. unfold dng_whites. rewrite (proj2 (usize_read _ _ _ _ _ _ P N1)). cbn [bind].
  pose proof (number_range _ _ _ N1). unfold as_u16. rewrite Z.mod_small by lia. reflexivity.
Qed.
Lemma crops_read : dng_crops sub w h = Ok (match m_area m with Some (t, l, b, r) => V4 t (w - r) (h - b) l | None => all4 0 end).
Proof.
  pose proof (d_area _ _ _ _ _ _ _ _ D) as N. unfold dng_crops. destruct (m_area m) as [[[[t l] b] r]|].
  - destruct N as (N1 & N2 & N3). destruct (numbers_found _ _ _ _ _ _ P N1) as (en & _ & E1 & E2 & E3). rewrite E1.
    destruct (E3 0%nat t eq_refl) as (G0 & _ & B0). destruct (E3 1%nat l eq_refl) as (G1 & _ & B1). destruct (E3 2%nat b eq_refl) as (G2 & _ & B2). destruct (E3 3%nat r eq_refl) as (G3 & _ & B3).
    pose proof (number_range _ _ _ (d_width _ _ _ _ _ _ _ _ D)). pose proof (number_range _ _ _ (d_height _ _ _ _ _ _ _ _ D)).
    change (Z.of_nat 0) with 0 in G0. change (Z.of_nat 1) with 1 in G1. change (Z.of_nat 2) with 2 in G2. change (Z.of_nat 3) with 3 in G3.
    rewrite G0. cbn [bind]. rewrite G3. cbn [bind]. rewrite (usub_ok w r) by lia. cbn [bind]. rewrite G2. cbn [bind]. rewrite (usub_ok h b) by lia. cbn [bind]. rewrite G1. reflexivity.
  - rewrite (proj2 (p_none _ _ _ _ P _ N)). reflexivity.
Qed.
Lemma pattern_found : exists pi p, tag_usize sub T_PhotometricInt = Ok pi /\ (if pi =? 34892 then cfa_new "" else dng_cfa sub) = Ok p /\
  match m_pattern m with
  | Some vs => forall pw ph row col, dims (length vs) = Some (pw, ph) -> 0 <= row < 2 ^ 63 -> 0 <= col < 2 ^ 63 ->
      color_at p row col = Ok (nth (Z.to_nat (row mod ph * pw + col mod pw)) vs 0)
  | None => cfa_is_valid p = false
  end.
Proof.
  pose proof (d_pattern _ _ _ _ _ _ _ _ D) as N. destruct (m_pattern m) as [vs|].
  - destruct N as (N1 & N2 & N3 & N4). exists 32803. destruct (dims (length vs)) as [[pw ph]|] eqn:Ed; [|destruct (N3 eq_refl)].
    destruct (bytes_numbers _ _ _ _ _ _ P N2 N4) as (en & E1 & E2 & E3). destruct (pattern_kept en vs pw ph E2 E3 Ed N4) as (p & Q1 & Q2).
    exists p. split; [apply (usize_read _ _ _ _ _ _ P N1)|]. split; [unfold dng_cfa, fetch_tag; rewrite E1; exact Q1|].
    intros pw' ph' row col Hd. injection Hd as <- <-. apply Q2.
  - exists 34892. eexists. split; [apply (usize_read _ _ _ _ _ _ P N)|]. split; [vm_compute; reflexivity|]. reflexivity.
Qed.
Lemma matrix_read : exists x, dng_matrix root = Ok x /\ let '(a, b, c) := m_matrix m in
    row_reads (e0 x) a /\ row_reads (e1 x) b /\ row_reads (e2 x) c /\ e3 x = V3 (B754_zero false) (B754_zero false) (B754_zero false).
Proof.
  pose proof (d_matrix _ _ _ _ _ _ _ _ D) as N. destruct (m_matrix m) as [[a b] c]. cbv zeta in N. unfold dng_matrix.
  assert (exists en, (match find_entry root T_ColorMatrix2 with Some c => Some c | None => find_entry root T_ColorMatrix1 end) = Some en /\ e_count en = 9 /\
    forall k x y, nth_error (list3 a ++ list3 b ++ list3 c) k = Some (x, y) -> exists v, get_f32 en (Z.of_nat k) = Ok v /\ reads_fraction v x y) as (en & E1 & E2 & E3).
  { assert (L : length (list3 a ++ list3 b ++ list3 c) = 9%nat) by (destruct a as [[? ?] ?], b as [[? ?] ?], c as [[? ?] ?]; reflexivity).
    destruct N as [N|[N0 N]]; destruct (signed_fractions_found _ _ _ _ _ _ P N) as (en & E1 & E2 & E3); exists en; rewrite L in E2; [|rewrite (proj1 (p_none _ _ _ _ P _ N0))]; rewrite E1; auto. }
  rewrite E1, E2. cbn [Z.ltb Z.compare Pos.compare Pos.compare_cont]. rewrite of_0.
  destruct a as [[[a1 a2] [a3 a4]] [a5 a6]], b as [[[b1 b2] [b3 b4]] [b5 b6]], c as [[[c1 c2] [c3 c4]] [c5 c6]]. cbn [list3 app] in E3.
  destruct (E3 0%nat _ _ eq_refl) as (x0 & G0 & R0). destruct (E3 1%nat _ _ eq_refl) as (x1 & G1 & R1). destruct (E3 2%nat _ _ eq_refl) as (x2 & G2 & R2).
  destruct (E3 3%nat _ _ eq_refl) as (x3 & G3 & R3). destruct (E3 4%nat _ _ eq_refl) as (x4 & G4 & R4). destruct (E3 5%nat _ _ eq_refl) as (x5 & G5 & R5).
  destruct (E3 6%nat _ _ eq_refl) as (x6 & G6 & R6). destruct (E3 7%nat _ _ eq_refl) as (x7 & G7 & R7). destruct (E3 8%nat _ _ eq_refl) as (x8 & G8 & R8). clear E3.
  cbn [Z.of_nat Pos.of_succ_nat Pos.succ] in *. change (zrange 0 9) with [0; 1; 2; 3; 4; 5; 6; 7; 8].
  exists (V4 (V3 x0 x1 x2) (V3 x3 x4 x5) (V3 x6 x7 x8) (V3 (B754_zero false) (B754_zero false) (B754_zero false))). split.
  - cbn [rfold]. rewrite G0. cbn [bind]. change (0 / 3) with 0. change (0 mod 3) with 0. cbn.
    rewrite G1. cbn. rewrite G2. cbn. rewrite G3. cbn. rewrite G4. cbn. rewrite G5. cbn. rewrite G6. cbn. rewrite G7. cbn. rewrite G8. reflexivity.
  - cbn [e0 e1 e2 e3]. unfold row_reads. cbn [a0 Num.a1 Num.a2 fst snd]. auto 20.
Qed.
End Any.
