(** Canon files with nested directories (C61). *)
From Coq Require Import String Ascii ZArith List Bool Reals Lia ZifyBool ZifyNat.
From Flocq Require Import Core BinarySingleNaN.
From Verif Require Import Base Num F32 Bytes Pumps Packed Huffman Lookup Ljpeg Cr2 Tiff Transform Image Camera Clients Decoder Dec_Ljpeg Dispatch.
From Verif Require Import Spec_Bits Spec_Image Spec_Stream Spec_Huffman Spec_Ljpeg Spec_Sensor Spec_Curve Spec_Tiff Spec_Camera Spec_Known Spec_Meta Spec_File Spec_Dng Spec_Canon Spec_Tree Spec_TreeCanon.
From Verif Require Import P_Base P_Bits P_F32 P_Tiff3 P_Tiff5 P_Lookup P_Ljpeg12 P_Ljpeg13 P_Sensor4 P_Black P_Meta1 P_Meta2 P_File1 P_File2 P_Dng2 P_Dng3 P_Canon P_Canon2 P_Tree1 P_Tree2 P_Tree3.
From Verif Require Props_Sensor Props_Meta.
Import ListNotations.
Local Open Scope Z_scope.

Section Any.
Context {M : Mode}.
Lemma short_seen : forall big fs root tag vs, Sees big fs root -> In (mkfield tag 3 vs) fs -> samples vs ->
  exists en, find_entry root tag = Some en /\ forall k v, nth_error vs k = Some v -> get_force_u16 en (Z.of_nat k) = Ok v.
Proof.
  intros big fs root tag vs P Hf Hv. destruct (s_in _ _ _ P _ Hf) as (en & E1 & E3). exists en. split; [exact E1|]. intros k v Hk.
  rewrite <- (get_u32_holds big (mkfield tag 3 vs) en k v eq_refl Hv E3 Hk). pose proof E3 as (_ & T & _). cbn [f_typ] in T. unfold get_u32. rewrite T. reflexivity.
Qed.
Lemma long_seen : forall big fs root tag vs, Sees big fs root -> In (mkfield tag 4 vs) fs -> Forall (fun v => 0 <= v < 2 ^ 32) vs ->
  exists en, find_entry root tag = Some en /\ forall k v, nth_error vs k = Some v -> get_force_u32 en (Z.of_nat k) = Ok v.
Proof.
  intros big fs root tag vs P Hf Hv. destruct (s_in _ _ _ P _ Hf) as (en & E1 & E3). exists en. split; [exact E1|]. intros k v Hk.
  rewrite <- (get_u32_holds big (mkfield tag 4 vs) en k v eq_refl Hv E3 Hk). pose proof E3 as (_ & T & _). cbn [f_typ] in T. unfold get_u32. rewrite T. reflexivity.
Qed.
Lemma canon_wb_seen : forall big fs root cam o b, Sees big fs root -> canon_balance fs cam b ->
  exists wb, cr2_wb root (set_orientation o cam) = Ok wb /\
    match b with
    | Some (r, g, b) => nearest (e0 wb) (IZR r) /\ nearest (e1 wb) (IZR g) /\ nearest (e2 wb) (IZR b) /\ e3 wb = B754_nan
    | None => wb = V4 B754_nan B754_nan B754_nan B754_nan
    end.
Proof.
  intros big fs root cam o b P H. unfold cr2_wb. change (c_wb_offset (set_orientation o cam)) with (c_wb_offset cam).
  destruct H as [vs p r g g' b Hf Hv Ep Hp Hs|a a' g r b rest Hn Hf Hv|r g b rest Hn1 Hn2 Hf|H1 H2 H3].
  - destruct (short_seen _ _ _ _ _ P Hf Hv) as (en & E & R). rewrite E.
    assert (Q : forall i v, nth_error [r; g; g'; b] i = Some v -> get_force_u16 en (p + Z.of_nat i) = Ok v /\ sample v).
    { intros i v Hi. rewrite <- Hs in Hi. apply slice_nth in Hi. split; [|exact (proj1 (Forall_forall _ _) Hv v (nth_error_In _ _ Hi))].
      rewrite <- (R _ _ Hi). f_equal. lia. }
    replace (if negb (c_wb_offset cam =? 0) then c_wb_offset cam else 63) with p by (rewrite Ep; destruct (c_wb_offset cam =? 0); reflexivity).
    destruct (Q 0%nat r eq_refl) as [Q1 S1]. destruct (Q 1%nat g eq_refl) as [Q2 S2]. destruct (Q 3%nat b eq_refl) as [Q3 S3].
    replace (p + Z.of_nat 0) with p in Q1 by lia. change (Z.of_nat 1) with 1 in Q2. change (Z.of_nat 3) with 3 in Q3. cbv zeta. rewrite Q1, Q2, Q3. cbn [bind].
    eexists. split; [reflexivity|]. cbn [e0 e1 e2 e3]. unfold sample in *. repeat split; try (apply number_near; lia).
  - rewrite (s_no _ _ _ P _ Hn). destruct (long_seen _ _ _ _ _ P Hf Hv) as (en & E & R). rewrite E.
    pose proof (R 3%nat r eq_refl) as R1. pose proof (R 2%nat g eq_refl) as R2. pose proof (R 4%nat b eq_refl) as R3.
    change (Z.of_nat 3) with 3 in R1. change (Z.of_nat 2) with 2 in R2. change (Z.of_nat 4) with 4 in R3. rewrite R1, R2, R3. cbn [bind].
    pose proof (proj1 (Forall_forall _ _) Hv) as V.
    eexists. split; [reflexivity|]. cbn [e0 e1 e2 e3]. split; [|split; [|split; [|reflexivity]]]; (apply number_near; apply V; cbn [In]; auto 8).
  - rewrite (s_no _ _ _ P _ Hn1), (s_no _ _ _ P _ Hn2). destruct (see_numbers _ _ _ _ _ P Hf) as (en & E & _ & R). rewrite E.
    destruct (R 0%nat r eq_refl) as (_ & R1 & V1). destruct (R 1%nat g eq_refl) as (_ & R2 & V2). destruct (R 2%nat b eq_refl) as (_ & R3 & V3).
    change (Z.of_nat 0) with 0 in R1. change (Z.of_nat 1) with 1 in R2. change (Z.of_nat 2) with 2 in R3. rewrite R1, R2, R3. cbn [bind].
    eexists. split; [reflexivity|]. cbn [e0 e1 e2 e3]. split; [|split; [|split; [|reflexivity]]]; apply number_near; assumption.
  - rewrite (s_no _ _ _ P _ H1), (s_no _ _ _ P _ H2), (s_no _ _ _ P _ H3). eexists. split; reflexivity.
Qed.

Lemma arranged_seen : forall big fs sub lj v w h q out p, Sees big fs sub -> v = 1 \/ v = 2 -> 0 < w -> 0 < h -> lj_width lj = 6 * w ->
  lj_super_h lj = Ok 2 -> lj_super_v lj = Ok v -> is_image out (6 * w) (v * h) q -> arranged fs v w h q p ->
  exists image, cr2_stripes sub lj 3 (6 * w) (v * h) out = Ok image /\ is_image image (6 * w) (v * h) p.
Proof.
  intros big fs sub lj v w h q out p P Hv Hw Hh Lw Sh Sv Im A. unfold cr2_stripes.
  destruct A as [Hk|k sw la Ev Hk K1 K2 K3|k t la Ev Hk K1 K2 K3].
  - rewrite (s_no _ _ _ P _ Hk). exists out. auto.
  - subst v. destruct (see_numbers _ _ _ _ _ P Hk) as (en & E & _ & R'). rewrite E.
    destruct (R' 0%nat k eq_refl) as (R1 & _ & V1). destruct (R' 1%nat sw eq_refl) as (R2 & _ & V2). destruct (R' 2%nat la eq_refl) as (R3 & _ & V3).
    change (Z.of_nat 0) with 0 in R1. change (Z.of_nat 1) with 1 in R2. change (Z.of_nat 2) with 2 in R3. rewrite R1, R2, R3. cbn [bind].
    replace (k =? 0) with false by lia. rewrite Sh, Sv. cbn [bind]. change (1 =? 2) with false. cbn iota.
    assert (A1 : 0 < sw / 2) by (apply Z.div_str_pos; lia). assert (A2 : 0 <= la / 2) by (apply Z.div_pos; lia).
    assert (B1 : 0 < sw / 2 * 3) by lia. assert (B2 : 0 <= la / 2 * 3) by lia.
    replace (1 * h) with h in * by lia. destruct Im as [J10 J11].
    destruct (stripes_placed (sw / 2 * 3) (la / 2 * 3) h out B1 B2 ltac:(lia) k (6 * w) 2 3 sw la ltac:(lia) ltac:(lia) J10 ltac:(lia) eq_refl eq_refl) as (image & S1 & S2 & S3).
    exists image. split; [exact S1|]. split; [exact S2|]. intros r c Hr Hc. rewrite S3 by assumption. cbv zeta.
    pose proof (place_range (sw / 2 * 3) (la / 2 * 3) h B1 B2 ltac:(lia) k r c ltac:(lia) Hr ltac:(lia)) as Pr. rewrite K3 in Pr.
    remember (stripe_place k (sw / 2 * 3) (la / 2 * 3) h r c) as pl.
    assert (0 < 6 * w) by lia. pose proof (Z.div_mod pl (6 * w) ltac:(lia)). pose proof (Z.mod_pos_bound pl (6 * w) ltac:(lia)).
    assert (0 <= pl / (6 * w) < h) by (split; [apply Z.div_pos; lia|apply Z.div_lt_upper_bound; lia]).
    rewrite <- J11 by assumption. f_equal. lia.
  - subst v. destruct (see_numbers _ _ _ _ _ P Hk) as (en & E & _ & R'). rewrite E.
    destruct (R' 0%nat k eq_refl) as (R1 & _ & V1). destruct (R' 1%nat (3 * t) eq_refl) as (R2 & _ & V2). destruct (R' 2%nat la eq_refl) as (R3 & _ & V3).
    change (Z.of_nat 0) with 0 in R1. change (Z.of_nat 1) with 1 in R2. change (Z.of_nat 2) with 2 in R3. rewrite R1, R2, R3. cbn [bind].
    replace (k =? 0) with false by lia. rewrite Sh, Sv. cbn [bind]. change (2 =? 2) with true. cbn iota. rewrite Lw.
    apply (Props_Sensor.C35_two_lines out q (6 * w) (2 * h) (6 * w) (2 * h) (3 * t) (k + 1) t h (2 * w) h); try lia; try assumption.
    + nia.
    + unfold field_widths. rewrite app_length, repeat_length. cbn [length]. lia.
    + unfold field_widths. destruct (Z.to_nat k) as [|m] eqn:Em; [lia|]. reflexivity.
Qed.


(** ** The directory of the picture and the order of the samples *)
Lemma canon_raw_found : forall big ts root fs off, Nested big ts root -> canon_raw ts fs off -> exists sub, cr2_raw root = Ok (sub, off) /\ Sees big fs sub.
Proof.
  intros big ts root fs off P H. unfold cr2_raw. destruct H as [t off D O|t off N D O|off rest N1 N2 O].
  - destruct (n_with _ _ _ P _ _ D) as (sub & F & R). pose proof (tree_sees _ _ _ R) as S0. exists sub. rewrite F, (proj1 (see_usize _ _ _ _ _ S0 O)). split; [reflexivity|exact S0].
  - destruct (n_with _ _ _ P _ _ D) as (sub & F & R). pose proof (tree_sees _ _ _ R) as S0. exists sub. rewrite (n_without _ _ _ P _ N), F, (proj1 (see_usize _ _ _ _ _ S0 O)). split; [reflexivity|exact S0].
  - exists root. pose proof (n_sees _ _ _ P) as S0. rewrite (n_without _ _ _ P _ N1), (n_without _ _ _ P _ N2).
    destruct (see_numbers _ _ _ _ _ S0 O) as (en & E & _ & R). destruct (R 0%nat off eq_refl) as (R1 & _). change (Z.of_nat 0) with 0 in R1. rewrite E, R1. split; [reflexivity|exact S0].
Qed.
Lemma canon_ordered : forall big fs sub lj w h place out, Sees big fs sub -> lj_super_h lj = Ok 1 -> lj_super_v lj = Ok 1 -> 0 < w -> 0 < h ->
  Z.of_nat (length out) = w * h -> canon_place fs w h place ->
  (forall r c, 0 <= r < h -> 0 <= c < w -> 0 <= place r c < w * h) /\
  exists image, cr2_stripes sub lj 1 w h out = Ok image /\ is_image image w h (fun r c => nth (Z.to_nat (place r c)) out 0).
Proof.
  intros big fs sub lj w h place out P J7 J8 Hw Hh Lo Hp. unfold cr2_stripes. destruct Hp as [Hk|k sw la rest Hk K1 K2 K3].
  - split; [intros; nia|]. exists out. split; [|split; [exact Lo|reflexivity]]. destruct Hk as [Hk|[rest Hk]]; [rewrite (s_no _ _ _ P _ Hk); reflexivity|].
    destruct (see_numbers _ _ _ _ _ P Hk) as (en & E & _ & R). destruct (R 0%nat 0 eq_refl) as (R1 & _). change (Z.of_nat 0) with 0 in R1. rewrite E, R1. reflexivity.
  - destruct (see_numbers _ _ _ _ _ P Hk) as (en & E & _ & R'). rewrite E.
    destruct (R' 0%nat k eq_refl) as (R1 & _ & V1). destruct (R' 1%nat sw eq_refl) as (R2 & _ & V2). destruct (R' 2%nat la eq_refl) as (R3 & _ & V3).
    change (Z.of_nat 0) with 0 in R1. change (Z.of_nat 1) with 1 in R2. change (Z.of_nat 2) with 2 in R3. rewrite R1, R2, R3. cbn [bind].
    replace (k =? 0) with false by lia. rewrite J7, J8. cbn [bind]. change (1 =? 2) with false. cbn iota. split.
    + intros r c Hr Hc. rewrite <- K3. apply place_range; lia.
    + apply stripes_placed; try lia; rewrite Z.div_1_r; lia.
Qed.

(** ** Through the table *)
Lemma linearized : forall curve tbl, samples curve -> increasing curve -> not_too_steep curve -> lookup_new curve = Ok tbl ->
  forall image random, Forall (fun v => 0 <= v < Z.of_nat (length curve)) image -> 0 <= random < 2 ^ 32 ->
  exists out, linearize tbl image random = Ok out /\ Forall2 (near curve) image out.
Proof.
  intros curve tbl Hs Hi Hn Ht. induction image as [|v t IH]; intros random Hv Hr; cbn [linearize]; [exists []; split; [reflexivity|constructor]|].
  inversion Hv as [|? ? V1 V2]; subst. destruct (dither_near curve v random Hs Hi Hn V1 Hr) as (tbl' & p & r' & E1 & E2 & E3 & E4).
  rewrite E1 in Ht. injection Ht as ->. rewrite E2. cbn [bind]. destruct (IH r' V2 E3) as (out & F1 & F2). rewrite F1. cbn [bind].
  eexists. split; [reflexivity|]. constructor; assumption.
Qed.
Lemma pairwise : forall {A B} (R : A -> B -> Prop) l m d e, Forall2 R l m -> length l = length m /\ forall k, (k < length l)%nat -> R (nth k l d) (nth k m e).
Proof.
  intros A B R l m d e H. induction H as [|x y l m Hx H [L IH]]; [split; [reflexivity|cbn; lia]|]. split; [cbn; lia|]. intros [|k] Hk; cbn [nth length] in *; [exact Hx|apply IH; lia].
Qed.

Context (powf : f32 -> f32 -> f32) (parse_f32 : string -> option f32).
Variables (db : list table) (l : loader).
Hypothesis Hl : loader_new db = Ok l.
Ltac enter G := eapply lib_decodes; [exact Hl|]; unfold decode; rewrite G; cbn [bind decoder_image].

(** What is left once the JPEG is decoded and the table has been applied *)
Lemma canon_rest : forall big ts fs off model data file o cam n jw jh jpeg w h place b,
  nested_photo l "" big ts "Canon" model file o cam -> canon_raw ts fs off -> from file off data ->
  holds_jpeg debug n jw jh jpeg data -> canon_size (find_hint cam "double_line") (n * jw) jh w h -> canon_place fs w h place -> canon_balance (visible ts) cam b ->
  0 < w /\ 0 < h /\ w * h = n * jw * jh /\ (forall r c, 0 <= r < h -> 0 <= c < w -> 0 <= place r c < w * h) /\
  forall Q : list Z -> list Z -> Prop, (forall root out, Sees big (visible ts) root -> is_image out (n * jw) jh (flat n jpeg) -> exists out', cr2_linearize root (set_orientation o cam) out = Ok out' /\ length out' = length out /\ Q out out') ->
  exists img out out', lib_decode powf parse_f32 db file = Ok img /\ shows img cam o w h /\ is_image out (n * jw) jh (flat n jpeg) /\ Q out out' /\
    is_image (i_data img) w h (fun r c => nth (Z.to_nat (place r c)) out' 0) /\ i_blacks img = c_blacks cam /\ has_balance img b.
Proof.
  intros big ts fs off model data file o cam n jw jh jpeg w h place b Hp Hraw Hfrom Hj Hsz Hpl Hb.
  destruct (nested_opened _ _ _ _ _ _ _ _ _ CR2 Hp eq_refl) as (root & [G P C N]).
  pose proof (np_file _ _ _ _ _ _ _ _ _ Hp) as TF. destruct (from_slice _ _ _ Hfrom (tf_bytes _ _ _ TF)) as [O3 _].
  assert (Hs : Z.of_nat (length data) + 16 < 2 ^ 32).
  { pose proof (tf_size _ _ _ TF). destruct Hfrom as [F1 F2]. rewrite <- F2, skipn_length. lia. }
  destruct (canon_jpeg n jw jh jpeg data Hj Hs) as (lj & out & J1 & J2 & J3 & J4 & J5 & J6 & J7 & J8 & J9 & J10).
  destruct (canon_raw_found _ _ _ _ _ P Hraw) as (sub & R & S0). pose proof (n_sees _ _ _ P) as S1.
  destruct (canon_wb_seen big (visible ts) root cam o b S1 Hb) as (wb & W1 & W2).
  assert (Hjw : 0 < n * jw) by nia. assert (Hd : 0 < w /\ 0 < h /\ w * h = n * jw * jh) by (unfold canon_size in Hsz; destruct (find_hint cam "double_line"); destruct Hsz; nia).
  destruct Hd as (Hw & Hh & Hwh). split; [exact Hw|]. split; [exact Hh|]. split; [exact Hwh|].
  assert (PL : forall image : list Z, Z.of_nat (length image) = w * h -> _) by (intros image Li; exact (canon_ordered big fs sub lj w h place image S0 J7 J8 Hw Hh Li Hpl)).
  split; [exact (proj1 (PL out ltac:(destruct J10; lia)))|].
  intros Q HQ. destruct (HQ root out S1 J10) as (out' & L1 & L2 & L3).
  destruct (proj2 (PL out' ltac:(destruct J10; lia))) as (image & T1 & T2).
  destruct (finished cam o w h wb image N) as (img & I1 & I2 & I3 & I4 & I5).
  exists img, out, out'. split; [|split; [exact I2|split; [exact J10|split; [exact L3|split; [rewrite I3; exact T2|split; [exact I4|]]]]]].
  - enter G. unfold cr2_image, check_supported. rewrite C. cbn [bind]. rewrite R. cbn [bind]. rewrite O3. cbn [bind]. rewrite J1. cbn [bind]. cbv zeta. rewrite J7. cbn [bind].
    rewrite J2, J3, J9. cbn [bind]. rewrite L1. cbn [bind].
    unfold cr2_size. change (1 =? 2) with false. cbn iota. change (1 =? 3) with false. cbn iota. change (find_hint (set_orientation o cam)) with (find_hint cam).
    assert (Es : (if find_hint cam "double_line" then Ok (n * jw / 2, jh * 2, out') else Ok (n * jw, jh, out')) = Ok (w, h, out')).
    { unfold canon_size in Hsz. destruct (find_hint cam "double_line"); destruct Hsz as [Z1 Z2]; f_equal; f_equal; f_equal; try lia. }
    rewrite Es. cbn [bind]. rewrite T1. cbn [bind]. rewrite W1. cbn [bind]. rewrite I1. reflexivity.
  - unfold has_balance. destruct b as [[[r g] bl]|]; [unfold balance; rewrite I5; exact W2|rewrite I5; exact W2].
Qed.
Lemma numbered : forall n w h jpeg out p, 0 < w -> 0 <= p < w * h -> is_image out w h (flat n jpeg) -> nth (Z.to_nat p) out 0 = numbered_sample n w jpeg p.
Proof.
  intros n w h jpeg out p Hw Hp [_ J]. unfold numbered_sample. pose proof (Z.div_mod p w ltac:(lia)). pose proof (Z.mod_pos_bound p w ltac:(lia)).
  assert (0 <= p / w < h) by (split; [apply Z.div_pos; lia|apply Z.div_lt_upper_bound; lia]). rewrite <- J by assumption. f_equal. lia.
Qed.
Lemma canon_nested : forall big ts fs off model data file o cam n jw jh jpeg w h place b,
  nested_photo l "" big ts "Canon" model file o cam -> canon_raw ts fs off -> from file off data -> find_hint cam "linearization" = false ->
  holds_jpeg debug n jw jh jpeg data -> canon_size (find_hint cam "double_line") (n * jw) jh w h -> canon_place fs w h place -> canon_balance (visible ts) cam b ->
  exists img, lib_decode powf parse_f32 db file = Ok img /\ shows img cam o w h /\ is_image (i_data img) w h (fun r c => numbered_sample n (n * jw) jpeg (place r c)) /\
    i_blacks img = c_blacks cam /\ has_balance img b.
Proof.
  intros big ts fs off model data file o cam n jw jh jpeg w h place b Hp Hraw Hfrom Hh1 Hj Hsz Hpl Hb.
  destruct (canon_rest _ _ _ _ _ _ _ _ _ _ _ _ _ _ _ _ _ Hp Hraw Hfrom Hj Hsz Hpl Hb) as (Hw & Hh & Hwh & Pl & K).
  destruct (K (fun out out' => out' = out)) as (img & out & out' & E1 & E2 & E3 & E4 & E5 & E6 & E7).
  - intros root out _ _. exists out. unfold cr2_linearize. change (find_hint (set_orientation o cam)) with (find_hint cam). rewrite Hh1. auto.
  - subst out'. exists img. split; [exact E1|]. split; [exact E2|]. split; [|split; [exact E6|exact E7]]. destruct E5 as [L E5]. split; [exact L|].
    intros r c Hr Hc. rewrite E5 by assumption. destruct Hj as (hs & prec & ids & tables & pt & dt & tail & filler & _ & _ & _ & _ & _ & X1 & _ & _ & X2 & _).
    apply (numbered n (n * jw) jh jpeg out); [nia|rewrite <- Hwh; apply Pl; assumption|exact E3].
Qed.
Lemma canon_linear_nested : forall big ts fs off model data file o cam n jw jh jpeg w h place b curve,
  nested_photo l "" big ts "Canon" model file o cam -> canon_raw ts fs off -> from file off data -> find_hint cam "linearization" = true ->
  has_numbers (visible ts) T_GrayResponse curve -> length curve = 4096%nat -> samples curve -> increasing curve -> not_too_steep curve ->
  holds_jpeg debug n jw jh jpeg data -> (forall r j i, 0 <= r < jh -> 0 <= j < jw -> 0 <= i < n -> jpeg r j i < 4096) ->
  canon_size (find_hint cam "double_line") (n * jw) jh w h -> canon_place fs w h place -> canon_balance (visible ts) cam b ->
  exists img, lib_decode powf parse_f32 db file = Ok img /\ shows img cam o w h /\ Z.of_nat (length (i_data img)) = w * h /\
    (forall r c, 0 <= r < h -> 0 <= c < w -> near curve (numbered_sample n (n * jw) jpeg (place r c)) (nth (Z.to_nat (r * w + c)) (i_data img) 0)) /\
    i_blacks img = c_blacks cam /\ has_balance img b.
Proof.
  intros big ts fs off model data file o cam n jw jh jpeg w h place b curve Hp Hraw Hfrom Hh1 Tc L4096 Hs Hi Ht Hj Hv Hsz Hpl Hb.
  destruct (canon_rest _ _ _ _ _ _ _ _ _ _ _ _ _ _ _ _ _ Hp Hraw Hfrom Hj Hsz Hpl Hb) as (Hw & Hh & Hwh & Pl & K).
  pose proof Hj as (hs & prec & ids & tables & pt & dt & tail & filler & _ & _ & _ & _ & _ & X1 & X3 & _ & X2 & _ & _ & _ & _ & _ & Sp & _).
  assert (W0 : 0 < n * jw) by nia.
  destruct (K (Forall2 (near curve))) as (img & out & out' & E1 & E2 & E3 & E4 & E5 & E6 & E7).
  - intros root out S0 Im. unfold cr2_linearize. change (find_hint (set_orientation o cam)) with (find_hint cam). rewrite Hh1.
    destruct (see_numbers _ _ _ _ _ S0 Tc) as (en & F1 & F2 & F3). unfold fetch_tag. rewrite F1. cbn [bind].
    assert (Em : mapM (fun i => v <- get_u32 en i ;; Ok (as_u16 v)) (zrange 0 4096) = Ok curve).
    { replace 4096 with (Z.of_nat (length curve)) by lia. apply (table_read M); [exact Hs|]. intros k v Hk. apply (F3 k v Hk). }
    rewrite Em. cbn [bind]. rewrite (lookup_new_ok curve Hs Hi Ht). cbn [bind].
    assert (V : Forall (fun v => 0 <= v < Z.of_nat (length curve)) out).
    { rewrite L4096. apply Forall_forall. intros v Iv. destruct (In_nth _ _ 0 Iv) as (k & Hk & <-). pose proof (proj1 Im) as Li.
      rewrite <- (Nat2Z.id k), (numbered n (n * jw) jh jpeg out (Z.of_nat k) W0 ltac:(lia) Im). unfold numbered_sample, flat.
      pose proof (Z.mod_pos_bound (Z.of_nat k) (n * jw) W0) as M1. assert (0 <= Z.of_nat k / (n * jw) < jh) by (split; [apply Z.div_pos; lia|apply Z.div_lt_upper_bound; lia]).
      remember (Z.of_nat k mod (n * jw)) as q. assert (0 <= q / n < jw) by (split; [apply Z.div_pos; lia|apply Z.div_lt_upper_bound; lia]).
      pose proof (Z.mod_pos_bound q n ltac:(lia)) as M2. change (Z.of_nat 4096) with 4096. split; [|apply Hv; assumption]. apply (Sp (Z.of_nat k / (n * jw)) (q / n) (q mod n)); assumption. }
    assert (R0 : exists random, get out 0 = Ok random /\ 0 <= random < 2 ^ 32).
    { destruct out as [|x t]; [destruct Im as [Li _]; cbn in Li; nia|]. exists x. split; [reflexivity|]. inversion V; subst. lia. }
    destruct R0 as (random & R1 & R2). rewrite R1. cbn [bind].
    destruct (linearized curve _ Hs Hi Ht (lookup_new_ok curve Hs Hi Ht) out random V R2) as (out' & G1 & G2). exists out'. split; [exact G1|]. split; [|exact G2].
    symmetry. exact (proj1 (pairwise _ _ _ 0 0 G2)).
  - exists img. split; [exact E1|]. split; [exact E2|]. destruct E5 as [L E5]. split; [exact L|]. split; [|split; [exact E6|exact E7]].
    intros r c Hr Hc. rewrite E5 by assumption. pose proof (Pl r c Hr Hc) as Pr. destruct (pairwise _ _ _ 0 0 E4) as [Le Pw].
    rewrite <- (numbered n (n * jw) jh jpeg out) by (try assumption; lia). apply Pw. destruct E3 as [E3 _]. lia.
Qed.
End Any.
