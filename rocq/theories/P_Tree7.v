(** DNG files whose picture is described in one of several directories (C60):
    the fields. *)
From Coq Require Import String Ascii ZArith List Bool Reals Lia ZifyBool ZifyNat.
From Flocq Require Import Core BinarySingleNaN.
From Verif Require Import Base Num F32 Bytes Cfa Packed Tiff Transform Image Camera Clients Decoder Dec_Ljpeg Dispatch.
From Verif Require Import Spec_Bits Spec_Image Spec_Cfa Spec_Tiff Spec_Camera Spec_Known Spec_Meta Spec_File Spec_Dng Spec_Tree Spec_TreeDng.
From Verif Require Import P_Base P_Bits P_F32 P_Tiff3 P_Tiff5 P_Meta1 P_Meta2 P_File1 P_File2 P_File4 P_Dng1 P_Tree1 P_Tree2 P_Tree3.
Import ListNotations.
Local Open Scope Z_scope.

(** ** The first directory of a picture *)
Lemma visible_number : forall fs tag v, has_number (firsts fs) tag v -> number_in (firsts fs) tag = Some v.
Proof.
  intros fs tag v H. unfold number_in.
  assert (exists f, In f (firsts fs) /\ f_tag f = tag /\ f_vals f = [v]) as (f & Hf & T & V) by (destruct H as [[H _]|[H _]]; eexists; (split; [exact H|split; reflexivity])).
  destruct (find (fun g => f_tag g =? tag) (firsts fs)) as [g|] eqn:E.
  - apply find_some in E. destruct E as [E1 E2]. pose proof (firsts_first _ _ Hf) as F1. pose proof (firsts_first _ _ E1) as F2. replace (f_tag g) with (f_tag f) in F2 by lia. rewrite F1 in F2. injection F2 as <-. rewrite V. reflexivity.
  - exfalso. pose proof (find_none _ _ E f Hf) as Q. cbv beta in Q. lia.
Qed.
Lemma visible_none : forall fs tag, has_no fs tag -> number_in fs tag = None.
Proof.
  intros fs tag H. unfold number_in. destruct (find (fun g => f_tag g =? tag) fs) as [g|] eqn:E; [|reflexivity]. exfalso. apply find_some in E. destruct E as [E1 E2]. apply H. replace tag with (f_tag g) by lia. apply in_map, E1.
Qed.
Section Any.
Context {M : Mode}.
Lemma full_app : forall a b, dng_full (a ++ b) = (x <- dng_full a ;; y <- dng_full b ;; Ok (x ++ y)).
Proof.
  intros a b. induction a as [|i a IH]; [cbn [app dng_full bind]; destruct (dng_full b); reflexivity|].
  cbn [app dng_full]. destruct (unwrap_entry i T_Compression) as [en| | |]; cbn [bind]; try reflexivity. destruct (get_u32 en 0) as [c| | |]; cbn [bind]; try reflexivity.
  match goal with |- context [bind ?x _] => destruct x as [s| | |] end; cbn [bind]; try reflexivity.
  rewrite IH. destruct (dng_full a) as [x| | |]; cbn [bind]; try reflexivity. destruct (dng_full b) as [y| | |]; cbn [bind]; try reflexivity.
  destruct (negb s && _); reflexivity.
Qed.
Lemma full_one : forall big t i, reads big t i -> marked t -> contains i T_Compression = true -> dng_full [i] = Ok (if shows_picture t then [i] else []).
Proof.
  intros big t i R Hm Hc. pose proof (tree_sees _ _ _ R) as S0. rewrite (contains_value _ _ _ _ R) in Hc. destruct (Hm Hc) as [[c Tc] K]. cbn [dng_full].
  destruct (see_number _ _ _ _ _ S0 Tc) as (en & E1 & _ & E3 & _). unfold unwrap_entry. rewrite E1. cbn [bind]. rewrite E3. cbn [bind].
  unfold shows_picture. rewrite Hc. change (visible [t]) with (firsts (all_fields [t])) in *. rewrite (visible_number _ _ _ Tc).
  assert (Ek : (match find_entry i T_NewSubFileType with Some en => v <- get_u32 en 0 ;; Ok (negb ((v &&& 1) =? 0)) | None => Ok false end) =
    Ok (negb (match number_in (firsts (all_fields [t])) T_NewSubFileType with Some v => Z.even v | None => true end))).
  { destruct K as [K|[v K]].
    - rewrite (s_no _ _ _ S0 _ K), (visible_none _ _ K). reflexivity.
    - destruct (see_number _ _ _ _ _ S0 K) as (en' & N1 & _ & N3 & _). rewrite N1, N3, (visible_number _ _ _ K). cbn [bind]. do 2 f_equal.
      change (v &&& 1) with (Z.land v (Z.ones 1)). rewrite Z.land_ones by lia. change (2 ^ 1) with 2. rewrite Zmod_even. destruct (Z.even v); reflexivity. }
  rewrite Ek. cbn [bind andb]. rewrite negb_involutive. rewrite andb_comm. change (c =? 0x884c) with (c =? 34892).
  replace ((c =? 7) || (c =? 1) || (c =? 34892)) with ((c =? 1) || (c =? 7) || (c =? 34892)) by (f_equal; apply orb_comm). reflexivity.
Qed.
Lemma in_full : forall big ts is, Forall (fun t => forall i, reads big t i -> Forall marked (all_trees t) -> exists r, dng_full (find_ifds_with_tag i T_Compression) = Ok r /\ leads big (find shows_picture (all_trees t)) r) ts ->
  Forall2 (reads big) ts is -> Forall marked (flat_map all_trees ts) -> exists r, dng_full (ifds_in is T_Compression) = Ok r /\ leads big (find shows_picture (flat_map all_trees ts)) r.
Proof.
  intros big ts is H H2. induction H2 as [|t i ts is Hr H2 IH]; intros Hm; [exists []; split; reflexivity|]. inversion H as [|? ? Ht Hts]; subst. cbn [flat_map] in *. apply Forall_app in Hm. destruct Hm as [Hm1 Hm2].
  destruct (Ht i Hr Hm1) as (r1 & R1 & L1). destruct (IH Hts Hm2) as (r2 & R2 & L2). cbn [ifds_in]. rewrite !full_app, R1, R2. cbn [bind].
  assert (marked t) as Hmt by (destruct t as [fs subs]; exact (Forall_inv Hm1)). rewrite find_app.
  destruct (contains i T_Compression) eqn:C.
  - rewrite (full_one _ _ _ Hr Hmt C). cbn [bind]. eexists. split; [reflexivity|].
    destruct (shows_picture t) eqn:Sp.
    + destruct t as [fs subs]. cbn [all_trees find]. rewrite Sp. cbn [app leads]. eexists _, _. split; [reflexivity|exact Hr].
    + cbn [app]. destruct (find shows_picture (all_trees t)) as [t'|]; cbn [leads] in L1.
      * destruct L1 as (i' & r & -> & Hr'). eexists _, _. split; [reflexivity|exact Hr'].
      * subst r1. exact L2.
  - cbn [dng_full bind]. eexists. split; [reflexivity|]. cbn [app]. destruct (find shows_picture (all_trees t)) as [t'|]; cbn [leads] in L1.
    + destruct L1 as (i' & r & -> & Hr'). eexists _, _. split; [reflexivity|exact Hr'].
    + subst r1. exact L2.
Qed.
Lemma tree_full : forall big t i, reads big t i -> Forall marked (all_trees t) -> exists r, dng_full (find_ifds_with_tag i T_Compression) = Ok r /\ leads big (find shows_picture (all_trees t)) r.
Proof.
  intros big t. induction t as [fs subs IH] using tree_deep. intros i Hr Hm. inversion Hr as [? ? es is nx Hnd Hst Hsub]; subst. cbn [all_trees] in Hm. inversion Hm as [|? ? Hm1 Hm2]; subst.
  destruct (in_full big subs is IH Hsub Hm2) as (r & R & L). rewrite find_ifds_eq, full_app, R.
  match goal with |- context [contains ?x _] => destruct (contains x T_Compression) eqn:C end.
  - rewrite (full_one _ _ _ Hr Hm1 C). cbn [bind]. eexists. split; [reflexivity|]. cbn [all_trees find]. destruct (shows_picture (Tree fs subs)).
    + eexists _, _. split; [reflexivity|exact Hr].
    + exact L.
  - cbn [dng_full bind app]. eexists. split; [reflexivity|]. cbn [all_trees find]. replace (shows_picture (Tree fs subs)) with false; [exact L|].
    unfold shows_picture. rewrite <- (contains_value _ _ _ T_Compression Hr), C. reflexivity.
Qed.
Lemma root_full : forall big ts is nx s e, Forall2 (reads big) ts is -> Forall marked (flat_map all_trees ts) ->
  exists r, dng_full (find_ifds_with_tag (mkifd [] is nx s e) T_Compression) = Ok r /\ leads big (find shows_picture (flat_map all_trees ts)) r.
Proof. intros big ts is nx s e H Hm. rewrite find_ifds_eq. cbn [contains i_entries lookup app]. apply in_full; [|exact H|exact Hm]. apply Forall_forall. intros t _ i. apply tree_full. Qed.

(** ** Fields *)
Lemma see_small : forall big fs i tag vs, Sees big fs i -> In (mkfield tag 1 vs) fs -> Forall (fun v => 0 <= v <= 2) vs ->
  exists en, find_entry i tag = Some en /\ e_count en = Z.of_nat (length vs) /\ forall k v, nth_error vs k = Some v -> get_u32 en (Z.of_nat k) = Ok v.
Proof.
  intros big fs i tag vs P Hf Hv. apply (field_numbers big fs i (mkfield tag 1 vs) P Hf); [reflexivity|]. cbn [f_typ f_vals type_size]. eapply Forall_impl; [|exact Hv]. cbv beta. intros x Hx. change (256 ^ 1) with 256. lia.
Qed.
Lemma see_signed : forall big fs i tag qs, Sees big fs i -> has_signed_fractions big fs tag qs ->
  exists en, find_entry i tag = Some en /\ e_count en = Z.of_nat (length qs) /\
    forall k a b, nth_error qs k = Some (a, b) -> exists x, get_f32 en (Z.of_nat k) = Ok x /\ reads_fraction x a b.
Proof.
  intros big fs i tag qs P [Hf Hq]. destruct (s_in _ _ _ P _ Hf) as (en & E1 & E3). exists en. split; [exact E1|]. split.
  - destruct E3 as (_ & _ & C & _). rewrite C. unfold zlen. cbn [f_vals]. rewrite map_length. reflexivity.
  - intros k a b Hk. eapply get_f32_holds; [exact E3|reflexivity| |exact Hk]. cbn [f_typ].
    eapply Forall_impl; [|exact Hq]. intros q [Q1 Q2]. split; right; auto.
Qed.
Variables (big : bool) (ts : list tree) (raw : tree) (make model : string) (file : list Z) (w h cpp comp : Z) (o : orientation) (m : dng_meta) (root sub : ifd).
Hypothesis P : Sees big (visible ts) root.
Hypothesis Q : Sees big (visible [raw]) sub.
Hypothesis D : dng_tree big ts raw make model file w h cpp comp o m.
Lemma nested_wb_read : exists wb, dng_wb root = Ok wb /\ e3 wb = B754_nan /\
  match m_neutral m with
  | Some (a, b, c) => inverse (e0 wb) a /\ inverse (e1 wb) b /\ inverse (e2 wb) c
  | None => e0 wb = B754_nan /\ e1 wb = B754_nan /\ e2 wb = B754_nan
  end.
Proof.
  pose proof (dt_neutral _ _ _ _ _ _ _ _ _ _ _ _ D) as N. unfold dng_wb. destruct (m_neutral m) as [[[qa qb] qc]|].
  - destruct N as [N1 N2]. cbn [list3] in *. destruct (see_fractions _ _ _ _ _ P N1) as (en & E1 & _ & E3). rewrite E1.
    pose proof (Forall_inv N2) as Ma. pose proof (Forall_inv (Forall_inv_tail N2)) as Mb. pose proof (Forall_inv (Forall_inv_tail (Forall_inv_tail N2))) as Mc.
    destruct qa as [a1 a2], qb as [b1 b2], qc as [c1 c2].
    destruct (E3 0%nat _ _ eq_refl) as (x & X1 & X2). destruct (E3 1%nat _ _ eq_refl) as (y & Y1 & Y2). destruct (E3 2%nat _ _ eq_refl) as (z & Z1 & Z2).
    change (Z.of_nat 0) with 0 in X1. change (Z.of_nat 1) with 1 in Y1. change (Z.of_nat 2) with 2 in Z1. rewrite X1, Y1. cbn [bind]. rewrite Z1. cbn [bind].
    eexists. split; [reflexivity|]. cbn [e0 e1 e2 e3]. split; [reflexivity|]. split; [|split]; apply inverse_close; assumption.
  - rewrite (s_no _ _ _ P _ N). eexists. split; [reflexivity|]. repeat split.
Qed.
Lemma nested_blacks_read : dng_blacks sub = Ok (match m_black m with Some [a; b; c; d] => V4 a b c d | Some (a :: _) => all4 a | _ => all4 0 end).
Proof.
  pose proof (dt_black _ _ _ _ _ _ _ _ _ _ _ _ D) as N. unfold dng_blacks. destruct (m_black m) as [vs|].
  - destruct N as (N1 & N2 & N3). destruct (see_numbers _ _ _ _ _ Q N1) as (en & E1 & E2 & E3). rewrite E1, E2.
    destruct N2 as [N2|N2].
    + destruct vs as [|a [|? ?]]; try discriminate N2. destruct (E3 0%nat a eq_refl) as (_ & G & _). change (Z.of_nat 0) with 0 in G. cbn [length Z.of_nat Z.ltb Z.compare Pos.of_succ_nat Pos.compare Pos.compare_cont]. rewrite G. cbn [bind].
      rewrite level_exact by exact (Forall_inv N3). reflexivity.
    + destruct vs as [|a [|b [|c [|d [|? ?]]]]]; try discriminate N2.
      destruct (E3 0%nat a eq_refl) as (_ & G0 & _). destruct (E3 1%nat b eq_refl) as (_ & G1 & _). destruct (E3 2%nat c eq_refl) as (_ & G2 & _). destruct (E3 3%nat d eq_refl) as (_ & G3 & _).
      change (Z.of_nat 0) with 0 in G0. change (Z.of_nat 1) with 1 in G1. change (Z.of_nat 2) with 2 in G2. change (Z.of_nat 3) with 3 in G3.
      change (Z.of_nat (length [a; b; c; d]) <? 4) with false. cbv iota. rewrite G0. cbn [bind]. rewrite G1. cbn [bind]. rewrite G2. cbn [bind]. rewrite G3. cbn [bind].
      assert (S : forall x, In x [a; b; c; d] -> f32_to 0 65535 (f32_of x) = x) by (intros x Hx; apply level_exact; exact (proj1 (Forall_forall _ _) N3 x Hx)).
      rewrite !S by (cbn; auto). reflexivity.
  - rewrite (s_no _ _ _ Q _ N). reflexivity.
Qed.
Lemma nested_whites_read : dng_whites sub = Ok (all4 (m_white m)).
Proof.
  destruct (dt_white _ _ _ _ _ _ _ _ _ _ _ _ D) as [N1 N2]. unfold dng_whites. rewrite (proj1 (see_usize _ _ _ _ _ Q N1)). cbn [bind].
  pose proof (number_range _ _ _ N1). unfold as_u16. rewrite Z.mod_small by lia. reflexivity.
Qed.
Lemma nested_crops_read : dng_crops sub w h = Ok (match m_area m with Some (t, l, b, r) => V4 t (w - r) (h - b) l | None => all4 0 end).
Proof.
  pose proof (dt_area _ _ _ _ _ _ _ _ _ _ _ _ D) as N. unfold dng_crops. destruct (m_area m) as [[[[t l] b] r]|].
  - destruct N as (N1 & N2 & N3). destruct (see_numbers _ _ _ _ _ Q N1) as (en & E1 & E2 & E3). rewrite E1.
    destruct (E3 0%nat t eq_refl) as (G0 & _ & B0). destruct (E3 1%nat l eq_refl) as (G1 & _ & B1). destruct (E3 2%nat b eq_refl) as (G2 & _ & B2). destruct (E3 3%nat r eq_refl) as (G3 & _ & B3).
    pose proof (number_range _ _ _ (dt_width _ _ _ _ _ _ _ _ _ _ _ _ D)). pose proof (number_range _ _ _ (dt_height _ _ _ _ _ _ _ _ _ _ _ _ D)).
    change (Z.of_nat 0) with 0 in G0. change (Z.of_nat 1) with 1 in G1. change (Z.of_nat 2) with 2 in G2. change (Z.of_nat 3) with 3 in G3.
    rewrite G0. cbn [bind]. rewrite G3. cbn [bind]. rewrite (usub_ok w r) by lia. cbn [bind]. rewrite G2. cbn [bind]. rewrite (usub_ok h b) by lia. cbn [bind]. rewrite G1. reflexivity.
  - rewrite (s_no _ _ _ Q _ N). reflexivity.
Qed.
Lemma nested_pattern_found : exists pi p, tag_usize sub T_PhotometricInt = Ok pi /\ (if pi =? 34892 then cfa_new "" else dng_cfa sub) = Ok p /\
  match m_pattern m with
  | Some vs => forall pw ph row col, dims (length vs) = Some (pw, ph) -> 0 <= row < 2 ^ 63 -> 0 <= col < 2 ^ 63 ->
      color_at p row col = Ok (nth (Z.to_nat (row mod ph * pw + col mod pw)) vs 0)
  | None => cfa_is_valid p = false
  end.
Proof.
  pose proof (dt_pattern _ _ _ _ _ _ _ _ _ _ _ _ D) as N. destruct (m_pattern m) as [vs|].
  - destruct N as (N1 & N2 & N3 & N4). exists 32803. destruct (dims (length vs)) as [[pw ph]|] eqn:Ed; [|destruct (N3 eq_refl)].
    destruct (see_small _ _ _ _ _ Q N2 N4) as (en & E1 & E2 & E3). destruct (pattern_kept en vs pw ph E2 E3 Ed N4) as (p & Q1 & Q2).
    exists p. split; [apply (see_usize _ _ _ _ _ Q N1)|]. split; [unfold dng_cfa, fetch_tag; rewrite E1; exact Q1|].
    intros pw' ph' row col Hd. injection Hd as <- <-. apply Q2.
  - exists 34892. eexists. split; [apply (see_usize _ _ _ _ _ Q N)|]. split; [vm_compute; reflexivity|]. reflexivity.
Qed.
Lemma nested_matrix_read : exists x, dng_matrix root = Ok x /\ let '(a, b, c) := m_matrix m in
    row_reads (e0 x) a /\ row_reads (e1 x) b /\ row_reads (e2 x) c /\ e3 x = V3 (B754_zero false) (B754_zero false) (B754_zero false).
Proof.
  pose proof (dt_matrix _ _ _ _ _ _ _ _ _ _ _ _ D) as N. destruct (m_matrix m) as [[a b] c]. cbv zeta in N. unfold dng_matrix.
  assert (exists en, (match find_entry root T_ColorMatrix2 with Some c => Some c | None => find_entry root T_ColorMatrix1 end) = Some en /\ e_count en = 9 /\
    forall k x y, nth_error (list3 a ++ list3 b ++ list3 c) k = Some (x, y) -> exists v, get_f32 en (Z.of_nat k) = Ok v /\ reads_fraction v x y) as (en & E1 & E2 & E3).
  { assert (L : length (list3 a ++ list3 b ++ list3 c) = 9%nat) by (destruct a as [[? ?] ?], b as [[? ?] ?], c as [[? ?] ?]; reflexivity).
    destruct N as [N|[N0 N]]; destruct (see_signed _ _ _ _ _ P N) as (en & E1 & E2 & E3); exists en; rewrite L in E2; [|rewrite (s_no _ _ _ P _ N0)]; rewrite E1; auto. }
  rewrite E1, E2. cbn [Z.ltb Z.compare Pos.compare Pos.compare_cont]. rewrite of_0.
  destruct a as [[[a1 a2] [a3 a4]] [a5 a6]], b as [[[b1 b2] [b3 b4]] [b5 b6]], c as [[[c1 c2] [c3 c4]] [c5 c6]]. cbn [list3 app] in E3.
  destruct (E3 0%nat _ _ eq_refl) as (x0 & G0 & R0). destruct (E3 1%nat _ _ eq_refl) as (x1 & G1 & R1). destruct (E3 2%nat _ _ eq_refl) as (x2 & G2 & R2).
  destruct (E3 3%nat _ _ eq_refl) as (x3 & G3 & R3). destruct (E3 4%nat _ _ eq_refl) as (x4 & G4 & R4). destruct (E3 5%nat _ _ eq_refl) as (x5 & G5 & R5).
  destruct (E3 6%nat _ _ eq_refl) as (x6 & G6 & R6). destruct (E3 7%nat _ _ eq_refl) as (x7 & G7 & R7). destruct (E3 8%nat _ _ eq_refl) as (x8 & G8 & R8). clear E3.
  cbn [Z.of_nat Pos.of_succ_nat Pos.succ] in *. change (zrange 0 9) with [0; 1; 2; 3; 4; 5; 6; 7; 8].
  exists (V4 (V3 x0 x1 x2) (V3 x3 x4 x5) (V3 x6 x7 x8) (V3 (B754_zero false) (B754_zero false) (B754_zero false))). split.
  - cbn [rfold]. rewrite G0. cbn [bind]. change (0 / 3) with 0. change (0 mod 3) with 0. cbn.
    rewrite G1. cbn. rewrite G2. cbn. rewrite G3. cbn. rewrite G4. cbn. rewrite G5. cbn. rewrite G6. cbn. rewrite G7. cbn. rewrite G8. reflexivity.
  - cbn [e0 e1 e2 e3]. unfold row_reads. cbn [a0 Num.a1 Num.a2 fst snd]. auto 20.
Qed.
End Any.
