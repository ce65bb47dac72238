(** Whole Canon files (C57). *)
From Coq Require Import String Ascii ZArith List Bool Reals Lia ZifyBool ZifyNat.
From Flocq Require Import Core BinarySingleNaN.
From Verif Require Import Base Num F32 Bytes Pumps Packed Huffman Ljpeg Cr2 Tiff Transform Image Camera Clients Decoder Dec_Ljpeg Dispatch.
From Verif Require Import Spec_Bits Spec_Image Spec_Stream Spec_Huffman Spec_Ljpeg Spec_Sensor Spec_Tiff Spec_Camera Spec_Known Spec_Meta Spec_File Spec_Dng Spec_Canon.
From Verif Require Import P_Base P_Bits P_F32 P_Tiff3 P_Tiff5 P_Ljpeg12 P_Ljpeg13 P_Sensor4 P_Black P_Meta1 P_Meta2 P_File1 P_File2 P_Dng2.
From Verif Require Props_Sensor.
Import ListNotations.
Local Open Scope Z_scope.

(** ** Stripes *)
Lemma map_repeated : forall (f : Z -> Z) x n, map f (repeat x n) = repeat (f x) n.
Proof. intros f x n. induction n as [|n IH]; [reflexivity|]. cbn. rewrite IH. reflexivity. Qed.
Section Stripes.
Variables (sw last_ h : Z) (D : list Z).
Hypothesis Hsw : 0 < sw.
Hypothesis Hlast : 0 <= last_.
Hypothesis Hh : 0 <= h.
Definition piece (off w : Z) : Z * (Z -> Z -> Z) := (w, fun r c => nth (Z.to_nat (off + r * w + c)) D 0).
Definition piece_data (off w : Z) : list Z := firstn (Z.to_nat (w * h)) (skipn (Z.to_nat off) D).
Fixpoint pieces (k : nat) (off : Z) : list (Z * (Z -> Z -> Z)) :=
  match k with O => [piece off last_] | S k => piece off sw :: pieces k (off + sw * h) end.
Fixpoint piece_datas (k : nat) (off : Z) : list (list Z) :=
  match k with O => [piece_data off last_] | S k => piece_data off sw :: piece_datas k (off + sw * h) end.
Lemma piece_image : forall off w, 0 <= off -> 0 <= w -> off + w * h <= Z.of_nat (length D) -> is_image (piece_data off w) w h (snd (piece off w)).
Proof.
  intros off w Ho Hw Hl. unfold piece_data. assert (0 <= w * h) by nia. split.
  - rewrite firstn_length, skipn_length. lia.
  - intros r c Hr Hc. cbn [piece snd]. assert (0 <= r * w) by nia. assert (r * w + c < w * h) by nia.
    rewrite nth_firstn' by lia. rewrite nth_skipn'. f_equal. lia.
Qed.
Lemma pieces_images : forall k off, 0 <= off -> off + (Z.of_nat k * sw + last_) * h <= Z.of_nat (length D) ->
  Forall2 (fun p d => 0 <= fst p /\ is_image d (fst p) h (snd p)) (pieces k off) (piece_datas k off).
Proof.
  induction k as [|k IH]; intros off Ho Hl; cbn [pieces piece_datas].
  - constructor; [|constructor]. split; [exact Hlast|]. apply piece_image; lia.
  - assert (0 <= sw * h) by nia. assert (0 <= last_ * h) by nia. assert (0 <= Z.of_nat k * sw * h) by nia.
    constructor; [split; [cbn; lia|apply piece_image; nia]|]. apply IH; nia.
Qed.
Lemma pieces_data : forall k off, 0 <= off -> off + (Z.of_nat k * sw + last_) * h = Z.of_nat (length D) -> concat (piece_datas k off) = skipn (Z.to_nat off) D.
Proof.
  induction k as [|k IH]; intros off Ho Hl; cbn [piece_datas concat].
  - rewrite app_nil_r. unfold piece_data. apply firstn_all2. rewrite skipn_length. lia.
  - assert (0 <= sw * h) by nia. rewrite IH by nia. unfold piece_data.
    rewrite <- (firstn_skipn (Z.to_nat (sw * h)) (skipn (Z.to_nat off) D)) at 2. f_equal. rewrite skipn_skipn'. f_equal. lia.
Qed.
Lemma pieces_widths : forall k off, map fst (pieces k off) = field_widths (Z.of_nat k) sw last_.
Proof.
  unfold field_widths. intros k off. rewrite Nat2Z.id. revert off. induction k as [|k IH]; intros off; [reflexivity|]. cbn [pieces map piece fst repeat app]. rewrite IH. reflexivity.
Qed.
Lemma pieces_total : forall k off, total_width (pieces k off) = Z.of_nat k * sw + last_.
Proof.
  unfold total_width. induction k as [|k IH]; intros off; cbn [pieces map piece fst]; [cbn; lia|]. change (sum (sw :: map fst (pieces k (off + sw * h)))) with (sw + sum (map fst (pieces k (off + sw * h)))). rewrite IH. lia.
Qed.
Lemma pieces_place : forall k off r c, 0 <= r -> 0 <= c < Z.of_nat k * sw + last_ ->
  side_by_side (pieces k off) r c = nth (Z.to_nat (off + stripe_place (Z.of_nat k) sw last_ h r c)) D 0.
Proof.
  induction k as [|k IH]; intros off r c Hr Hc; cbn [pieces side_by_side piece].
  - replace (c <? last_) with true by lia. unfold stripe_place. pose proof (Z.div_pos c sw ltac:(lia) Hsw). rewrite Z.min_l by lia. change (Z.of_nat 0) with 0. cbn [Z.ltb Z.compare]. f_equal. f_equal. lia.
  - unfold stripe_place. destruct (c <? sw) eqn:E.
    + rewrite (Z.div_small c sw) by lia. rewrite Z.min_r by lia. replace (0 <? Z.of_nat (S k)) with true by lia. f_equal. lia.
    + fold (piece off sw). rewrite IH by lia. unfold stripe_place.
      assert (Q : c / sw = 1 + (c - sw) / sw) by (rewrite <- (Z.div_add_l 1 sw) by lia; f_equal; lia).
      pose proof (Z.div_pos (c - sw) sw ltac:(lia) Hsw). rewrite Q. remember ((c - sw) / sw) as q. replace (Z.min (Z.of_nat (S k)) (1 + q)) with (1 + Z.min (Z.of_nat k) q) by lia.
      remember (Z.min (Z.of_nat k) q) as s. replace (1 + s <? Z.of_nat (S k)) with (s <? Z.of_nat k) by lia. f_equal. nia.
Qed.
Lemma stripes_placed : forall k W sh cpp sw0 last0, 0 <= k -> W = k * sw + last_ -> Z.of_nat (length D) = W * h ->
  sh <> 0 -> sw = sw0 / sh * cpp -> last_ = last0 / sh * cpp ->
  exists out, stripes_v1 D W h sh cpp (field_widths k sw0 last0) = Ok out /\
    is_image out W h (fun r c => nth (Z.to_nat (stripe_place k sw last_ h r c)) D 0).
Proof.
  intros k W sh cpp sw0 last0 Hk EW HD Hsh Es El.
  destruct (Props_Sensor.C35_stripes (pieces (Z.to_nat k) 0) (piece_datas (Z.to_nat k) 0) [] W h sh cpp (field_widths k sw0 last0)) as (out & E1 & E2 & E3).
  - exact Hsh.
  - exact Hh.
  - subst W. nia.
  - apply pieces_images; [lia|]. rewrite Z2Nat.id by lia. nia.
  - rewrite pieces_widths, Z2Nat.id by lia. unfold field_widths. rewrite map_app, map_repeated. cbn [map]. rewrite <- Es, <- El. reflexivity.
  - rewrite pieces_total, Z2Nat.id; lia.
  - rewrite app_nil_r, pieces_data in E1; [|lia|rewrite Z2Nat.id by lia; nia]. cbn [Z.to_nat skipn] in E1. exists out. split; [exact E1|]. split; [exact E2|].
    intros r c Hr Hc. rewrite E3 by assumption. rewrite pieces_place by (rewrite ?Z2Nat.id; lia). rewrite Z2Nat.id by lia. f_equal.
Qed.
Lemma place_range : forall k r c, 0 <= k -> 0 <= r < h -> 0 <= c < k * sw + last_ -> 0 <= stripe_place k sw last_ h r c < (k * sw + last_) * h.
Proof.
  intros k r c Hk Hr Hc. unfold stripe_place. pose proof (Z.div_pos c sw ltac:(lia) Hsw). pose proof (Z.mul_div_le c sw Hsw). pose proof (Z.mul_succ_div_gt c sw Hsw).
  remember (c / sw) as q. destruct (Z.min_spec k q) as [[A ->]|[A ->]].
  - replace (k <? k) with false by lia. assert (k * sw <= c) by nia. assert (0 <= r * last_) by nia. assert (0 <= k * sw * h) by nia. split; [lia|].
    assert ((h - 1 - r) * last_ >= 0) by nia. nia.
  - destruct (q <? k) eqn:E.
    + assert (0 <= r * sw) by nia. assert (0 <= q * sw * h) by nia. split; [nia|].
      assert (r * sw + (c - q * sw) < sw * h) by nia. assert ((k - q - 1) * sw * h >= 0) by nia. assert (last_ * h >= 0) by nia. nia.
    + assert (q = k) by lia. subst k. assert (0 <= r * last_) by nia. assert (0 <= q * sw * h) by nia. split; [nia|].
      assert ((h - 1 - r) * last_ >= 0) by nia. nia.
Qed.
End Stripes.

(** ** JPEG *)
Section Any.
Context {M : Mode}.
Lemma sampled_file : forall hs prec w h ids tables pt data tail,
  jpeg_file hs prec w h ids tables pt data tail = jpeg_sampled hs prec w h (map (fun id => (id, (1, 1))) ids) tables 1 pt (stuff data ++ [255; 217] ++ tail).
Proof.
  intros. unfold jpeg_file, jpeg_sampled, sof_segment, sof_sampled. rewrite !map_length, map_map. cbn [fst].
  assert (E1 : flat_map (fun id => [id; 17; 0]) ids = flat_map (fun '(id, (a, b)) => [id; 16 * a + b; 0]) (map (fun id : Z => (id, (1, 1))) ids)).
  { rewrite !flat_map_concat_map, map_map. reflexivity. }
  rewrite E1, map_id. rewrite <- !app_assoc. reflexivity.
Qed.
Lemma canon_jpeg : forall n w h pic stored, holds_jpeg debug n w h pic stored -> Z.of_nat (length stored) + 16 < 2 ^ 32 ->
  exists lj out, ljpeg_new (stored ++ zeros 16) = Ok lj /\ lj_width lj = n * w /\ lj_height lj = h /\ 2 <= n <= 4 /\ 0 < w /\ 0 < h /\
    lj_super_h lj = Ok 1 /\ lj_super_v lj = Ok 1 /\
    ljpeg_decode lj (zeros (n * w * h)) 0 (n * w) (n * w) h = Ok out /\ is_image out (n * w) h (flat n pic).
Proof.
  intros n w h pic stored (hs & prec & ids & tables & pt & data & tail & filler & E & En & H1 & H2 & H3 & H4 & H5 & H6 & H7 & H8 & H9 & H10 & H11 & H12 & H13 & H14 & H15) Hl.
  assert (Ez : stored ++ zeros 16 = jpeg_file hs prec w h ids tables pt data (tail ++ zeros 16)) by (rewrite E; unfold jpeg_file; rewrite <- !app_assoc; reflexivity).
  rewrite sampled_file in Ez. assert (Lz : length (zeros 16) = 16%nat) by reflexivity.
  destruct ids as [|id ids]; [cbn in En; lia|]. cbn [map] in Ez.
  assert (Lm : length ((id, (1, 1)) :: map (fun id : Z => (id, (1, 1))) ids) = length (id :: ids)) by (cbn [length]; rewrite map_length; reflexivity).
  destruct (comps_file hs prec w h id 1 1 (map (fun id => (id, (1, 1))) ids) tables pt data (tail ++ zeros 16) false false pic filler) as (lj & L1 & L2 & L3 & (t & L4) & L5);
    rewrite ?Lm, <- ?En; try assumption; try discriminate.
  - apply Forall_forall. intros x Hx. change ((id, (1, 1)) :: map (fun id : Z => (id, (1, 1))) ids) with (map (fun id : Z => (id, (1, 1))) (id :: ids)) in Hx.
    apply in_map_iff in Hx. destruct Hx as (y & <- & _). lia.
  - change ((id, (1, 1)) :: map (fun id : Z => (id, (1, 1))) ids) with (map (fun id : Z => (id, (1, 1))) (id :: ids)). rewrite map_map. cbn [fst]. rewrite map_id. exact H8.
  - apply Forall_app. split; [exact H12|apply zeros_bytes].
  - change (217 :: tail ++ zeros 16) with ((217 :: tail) ++ zeros 16). change (zeros 16) with (repeat 0 15 ++ [0]). rewrite app_assoc, last_last. discriminate.
  - rewrite !app_length, Lz. rewrite E in Hl. unfold jpeg_file in Hl. rewrite !app_length in Hl. lia.
  - rewrite Lm, <- En in L2, L5. destruct (L5 (zeros (n * w * h)) 0 (n * w) w h) as (out & D1 & D2 & D3 & _).
    + lia.
    + lia.
    + lia.
    + lia.
    + unfold zeros. rewrite repeat_length. nia.
    + intros _. split; reflexivity.
    + exists lj, out. unfold ljpeg_new. rewrite Ez. repeat (split; [assumption || lia|]). unfold lj_super_h, lj_super_v. rewrite L4.
      split; [reflexivity|]. split; [reflexivity|]. split; [exact D1|]. split.
      * rewrite D2. unfold zeros. rewrite repeat_length. nia.
      * intros r c Hr Hc. pose proof (Z.div_mod c n ltac:(lia)) as Q. pose proof (Z.mod_pos_bound c n ltac:(lia)) as Q2.
        assert (0 <= c / n < w) by (split; [apply Z.div_pos; lia|apply Z.div_lt_upper_bound; lia]).
        unfold flat. rewrite <- (D3 r (c / n) (c mod n)) by lia. f_equal. lia.
Qed.

(** ** White balance *)
Lemma short_forced : forall big fs root sub tag vs, Parsed big fs root sub -> In (mkfield tag 3 vs) fs -> samples vs ->
  exists en, find_entry root tag = Some en /\ forall k v, nth_error vs k = Some v -> get_force_u16 en (Z.of_nat k) = Ok v.
Proof.
  intros big fs root sub tag vs P Hf Hv. destruct (p_root _ _ _ _ P _ Hf) as (en & E1 & _ & E3). exists en. split; [exact E1|]. intros k v Hk.
  rewrite <- (get_u32_holds big (mkfield tag 3 vs) en k v eq_refl Hv E3 Hk). pose proof E3 as (_ & T & _). cbn [f_typ] in T. unfold get_u32. rewrite T. reflexivity.
Qed.
Lemma long_forced : forall big fs root sub tag vs, Parsed big fs root sub -> In (mkfield tag 4 vs) fs -> Forall (fun v => 0 <= v < 2 ^ 32) vs ->
  exists en, find_entry root tag = Some en /\ forall k v, nth_error vs k = Some v -> get_force_u32 en (Z.of_nat k) = Ok v.
Proof.
  intros big fs root sub tag vs P Hf Hv. destruct (p_root _ _ _ _ P _ Hf) as (en & E1 & _ & E3). exists en. split; [exact E1|]. intros k v Hk.
  rewrite <- (get_u32_holds big (mkfield tag 4 vs) en k v eq_refl Hv E3 Hk). pose proof E3 as (_ & T & _). cbn [f_typ] in T. unfold get_u32. rewrite T. reflexivity.
Qed.
Lemma slice_nth : forall {A} (l : list A) p n i v, nth_error (firstn n (skipn p l)) i = Some v -> nth_error l (p + i) = Some v.
Proof.
  intros A l p. revert l. induction p as [|p IH]; intros l n i v H; cbn [skipn Nat.add] in *.
  - revert n i H. induction l as [|x l IHl]; intros [|n] [|i] H; cbn in *; try discriminate; auto. eapply IHl. exact H.
  - destruct l as [|x l]; [destruct n, i; discriminate H|]. cbn [nth_error]. eapply IH. exact H.
Qed.
Lemma canon_wb_read : forall big fs root sub cam o b, Parsed big fs root sub -> canon_balance fs cam b ->
  exists wb, cr2_wb root (set_orientation o cam) = Ok wb /\
    match b with
    | Some (r, g, b) => nearest (e0 wb) (IZR r) /\ nearest (e1 wb) (IZR g) /\ nearest (e2 wb) (IZR b) /\ e3 wb = B754_nan
    | None => wb = V4 B754_nan B754_nan B754_nan B754_nan
    end.
Proof.
  intros big fs root sub cam o b P H. unfold cr2_wb. change (c_wb_offset (set_orientation o cam)) with (c_wb_offset cam).
  destruct H as [vs p r g g' b Hf Hv Ep Hp Hs|a a' g r b rest Hn Hf Hv|r g b rest Hn1 Hn2 Hf|H1 H2 H3].
  - destruct (short_forced _ _ _ _ _ _ P Hf Hv) as (en & E & R). rewrite E.
    assert (Q : forall i v, nth_error [r; g; g'; b] i = Some v -> get_force_u16 en (p + Z.of_nat i) = Ok v /\ sample v).
    { intros i v Hi. rewrite <- Hs in Hi. apply slice_nth in Hi. split; [|exact (proj1 (Forall_forall _ _) Hv v (nth_error_In _ _ Hi))].
      rewrite <- (R _ _ Hi). f_equal. lia. }
    replace (if negb (c_wb_offset cam =? 0) then c_wb_offset cam else 63) with p by (rewrite Ep; destruct (c_wb_offset cam =? 0); reflexivity).
    destruct (Q 0%nat r eq_refl) as [Q1 S1]. destruct (Q 1%nat g eq_refl) as [Q2 S2]. destruct (Q 3%nat b eq_refl) as [Q3 S3].
    replace (p + Z.of_nat 0) with p in Q1 by lia. change (Z.of_nat 1) with 1 in Q2. change (Z.of_nat 3) with 3 in Q3. cbv zeta. rewrite Q1, Q2, Q3. cbn [bind].
    eexists. split; [reflexivity|]. cbn [e0 e1 e2 e3]. unfold sample in *. repeat split; try (apply number_near; lia).
  - rewrite (proj1 (p_none _ _ _ _ P _ Hn)). destruct (long_forced _ _ _ _ _ _ P Hf Hv) as (en & E & R). rewrite E.
    pose proof (R 3%nat r eq_refl) as R1. pose proof (R 2%nat g eq_refl) as R2. pose proof (R 4%nat b eq_refl) as R3.
    change (Z.of_nat 3) with 3 in R1. change (Z.of_nat 2) with 2 in R2. change (Z.of_nat 4) with 4 in R3. rewrite R1, R2, R3. cbn [bind].
    pose proof (proj1 (Forall_forall _ _) Hv) as V.
    eexists. split; [reflexivity|]. cbn [e0 e1 e2 e3]. split; [|split; [|split; [|reflexivity]]]; (apply number_near; apply V; cbn [In]; auto 8).
  - rewrite (proj1 (p_none _ _ _ _ P _ Hn1)), (proj1 (p_none _ _ _ _ P _ Hn2)). destruct (numbers_found _ _ _ _ _ _ P Hf) as (en & E & _ & _ & R). rewrite E.
    destruct (R 0%nat r eq_refl) as (_ & R1 & V1). destruct (R 1%nat g eq_refl) as (_ & R2 & V2). destruct (R 2%nat b eq_refl) as (_ & R3 & V3).
    change (Z.of_nat 0) with 0 in R1. change (Z.of_nat 1) with 1 in R2. change (Z.of_nat 2) with 2 in R3. rewrite R1, R2, R3. cbn [bind].
    eexists. split; [reflexivity|]. cbn [e0 e1 e2 e3]. split; [|split; [|split; [|reflexivity]]]; apply number_near; assumption.
  - rewrite (proj1 (p_none _ _ _ _ P _ H1)), (proj1 (p_none _ _ _ _ P _ H2)), (proj1 (p_none _ _ _ _ P _ H3)). eexists. split; reflexivity.
Qed.

Context (powf : f32 -> f32 -> f32) (parse_f32 : string -> option f32).
Variables (db : list table) (l : loader).
Hypothesis Hl : loader_new db = Ok l.
Ltac enter G := eapply lib_decodes; [exact Hl|]; unfold decode; rewrite G; cbn [bind decoder_image].

Lemma canon_file : forall big fs model gap data file o cam n jw h jpeg pic b,
  photo l "" big fs "Canon" model T_StripOffsets gap data file o cam ->
  In T_Cr2Id (map f_tag fs) \/ In T_CFAPattern (map f_tag fs) ->
  find_hint cam "linearization" = false -> find_hint cam "double_line" = false ->
  holds_jpeg debug n jw h jpeg data -> canon_picture fs n (n * jw) h jpeg pic -> canon_balance fs cam b ->
  exists img, lib_decode powf parse_f32 db file = Ok img /\ shows img cam o (n * jw) h /\ is_image (i_data img) (n * jw) h pic /\
    i_blacks img = c_blacks cam /\ has_balance img b.
Proof.
  intros big fs model gap data file o cam n jw h jpeg pic b Hp Hid Hh1 Hh2 Hj Hpic Hb.
  destruct (photo_opened _ _ _ _ _ _ _ _ _ _ _ _ CR2 Hp eq_refl) as (root & sub & [G P (off & O1 & O2 & O3) C B N]).
  assert (Hs : Z.of_nat (length data) + 16 < 2 ^ 32).
  { pose proof (ph_file _ _ _ _ _ _ _ _ _ _ _ _ Hp) as [_ Ef Hsz _ _]. rewrite Ef, !app_length in Hsz. lia. }
  destruct (canon_jpeg n jw h jpeg data Hj Hs) as (lj & out & J1 & J2 & J3 & J4 & J5 & J6 & J7 & J8 & J9 & J10).
  destruct (canon_wb_read big fs root sub cam o b P Hb) as (wb & W1 & W2).
  assert (R : cr2_raw root = Ok (sub, off)).
  { unfold cr2_raw. assert (Hf : forall tag, In tag (map f_tag fs) -> find_first_ifd root tag = Some sub).
    { intros tag Ht. pose proof (ifd_found _ _ _ _ _ P Ht) as F. unfold fetch_ifd in F. destruct (find_first_ifd root tag); [congruence|discriminate F]. }
    destruct Hid as [Hid|Hid]; [rewrite (Hf _ Hid), O2; reflexivity|].
    destruct (in_dec Z.eq_dec T_Cr2Id (map f_tag fs)) as [Hi|Hi]; [rewrite (Hf _ Hi), O2; reflexivity|].
    rewrite (p_absent _ _ _ _ P _ Hi), (Hf _ Hid), O2. reflexivity. }
  assert (St : exists image, cr2_stripes sub lj 1 (n * jw) h out = Ok image /\ is_image image (n * jw) h pic).
  { unfold cr2_stripes. destruct Hpic as [(k & sw & la & Hk & K1 & K2 & K3 & K4)|[Hk K]].
    - destruct (numbers_found _ _ _ _ _ _ P Hk) as (en & _ & E & _ & R'). rewrite E.
      destruct (R' 0%nat k eq_refl) as (R1 & _ & V1). destruct (R' 1%nat sw eq_refl) as (R2 & _ & V2). destruct (R' 2%nat la eq_refl) as (R3 & _ & V3).
      change (Z.of_nat 0) with 0 in R1. change (Z.of_nat 1) with 1 in R2. change (Z.of_nat 2) with 2 in R3. rewrite R1, R2, R3. cbn [bind].
      replace (k =? 0) with false by lia. rewrite J7, J8. cbn [bind]. change (1 =? 2) with false. cbn iota.
      destruct J10 as [J10 J11]. destruct (stripes_placed sw la h out K2 (proj1 V3) ltac:(lia) k (n * jw) 1 1 sw la ltac:(lia) ltac:(lia) J10 ltac:(lia) ltac:(rewrite Z.div_1_r; lia) ltac:(rewrite Z.div_1_r; lia)) as (image & S1 & S2 & S3).
      exists image. split; [exact S1|]. split; [exact S2|]. intros r c Hr Hc. rewrite S3 by assumption.
      pose proof (place_range sw la h K2 (proj1 V3) ltac:(lia) k r c ltac:(lia) Hr ltac:(lia)) as Pr. rewrite K3 in Pr.
      rewrite <- (K4 r c Hr Hc). unfold numbered_sample. remember (stripe_place k sw la h r c) as p.
      assert (0 < n * jw) by nia. pose proof (Z.div_mod p (n * jw) ltac:(lia)). pose proof (Z.mod_pos_bound p (n * jw) ltac:(lia)).
      assert (0 <= p / (n * jw) < h) by (split; [apply Z.div_pos; lia|apply Z.div_lt_upper_bound; lia]).
      rewrite <- J11 by assumption. f_equal. lia.
    - rewrite (proj2 (p_none _ _ _ _ P _ Hk)). exists out. split; [reflexivity|]. destruct J10 as [J10 J11]. split; [exact J10|].
      intros r c Hr Hc. rewrite J11 by assumption. apply K; assumption. }
  destruct St as (image & S1 & S2).
  destruct (finished cam o (n * jw) h wb image N) as (img & I1 & I2 & I3 & I4 & I5).
  exists img. split; [|split; [exact I2|split; [rewrite I3; exact S2|split; [exact I4|]]]].
  - enter G. unfold cr2_image, check_supported. rewrite C. cbn [bind]. rewrite R. cbn [bind]. rewrite O3. cbn [bind]. rewrite J1. cbn [bind]. cbv zeta. rewrite J7. cbn [bind].
    rewrite J2, J3, J9. cbn [bind]. unfold cr2_linearize. change (find_hint (set_orientation o cam)) with (find_hint cam). rewrite Hh1. cbn [bind].
    unfold cr2_size. change (1 =? 2) with false. cbn iota. change (1 =? 3) with false. cbn iota. change (find_hint (set_orientation o cam)) with (find_hint cam). rewrite Hh2. cbn [bind].
    rewrite S1. cbn [bind]. rewrite W1. cbn [bind]. rewrite I1. reflexivity.
  - unfold has_balance. destruct b as [[[r g] bl]|]; [unfold balance; rewrite I5; exact W2|rewrite I5; exact W2].
Qed.
End Any.
