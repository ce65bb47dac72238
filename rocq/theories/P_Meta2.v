(** Numbers and filter patterns of a file (C51). *)
From Coq Require Import String Ascii ZArith List Bool Reals Lia Lra.
From Flocq Require Import Core Relative BinarySingleNaN.
From Verif Require Import Base Num F32 Bytes Tiff Cfa Decoder Spec_Bits Spec_Cfa Spec_Tiff Spec_Meta P_Base P_Bits P_F32 P_Tiff3 P_Tiff5 P_Cfa P_Cfa2 P_Meta1.
Import ListNotations.
Local Open Scope Z_scope.

Lemma little_app : forall n k v, little (n + k) v = little n v ++ little k (v / 256 ^ Z.of_nat n).
Proof.
  induction n as [|n IH]; intros k v; [cbn; rewrite Z.div_1_r; reflexivity|]. cbn [Nat.add little app]. f_equal. rewrite IH. do 2 f_equal.
  rewrite Nat2Z.inj_succ, Z.pow_succ_r, <- Z.div_div by lia. reflexivity.
Qed.
Lemma little_mod : forall n v, little n (v mod 256 ^ Z.of_nat n) = little n v.
Proof.
  induction n as [|n IH]; intros v; [reflexivity|]. cbn [little]. rewrite Nat2Z.inj_succ, Z.pow_succ_r by lia.
  set (p := 256 ^ Z.of_nat n) in *. assert (0 < p) by (apply Z.pow_pos_nonneg; lia). f_equal.
  - rewrite Z.rem_mul_r, (Z.mul_comm 256), Z.mod_add, Z.mod_mod by lia. reflexivity.
  - rewrite <- (IH (v / 256)). f_equal. rewrite Z.rem_mul_r, (Z.mul_comm 256), Z.div_add by lia. rewrite (Z.div_small (v mod 256)) by (apply Z.mod_pos_bound; lia). reflexivity.
Qed.
(** Eight bytes are twice four. *)
Lemma fraction_bytes : forall big a b, bytes_of big 8 (fraction big (a, b)) = bytes_of big 4 (a mod 2 ^ 32) ++ bytes_of big 4 (b mod 2 ^ 32).
Proof.
  intros big a b. unfold fraction. cbn [fst snd]. pose proof (Z.mod_pos_bound a (2 ^ 32) ltac:(lia)) as Ha. pose proof (Z.mod_pos_bound b (2 ^ 32) ltac:(lia)) as Hb.
  set (x := a mod 2 ^ 32) in *. set (y := b mod 2 ^ 32) in *. change (2 ^ 32) with 4294967296 in *.
  assert (G : forall p q, 0 <= p < 4294967296 -> little 8 (p + q * 4294967296) = little 4 p ++ little 4 q).
  { intros p q Hp. change 8%nat with (4 + 4)%nat. rewrite little_app. change (256 ^ Z.of_nat 4) with 4294967296. rewrite Z.div_add, (Z.div_small p), Z.add_0_l by lia. f_equal.
    rewrite <- (little_mod 4 (p + _)), <- (little_mod 4 p). change (256 ^ Z.of_nat 4) with 4294967296. rewrite Z.mod_add by lia. reflexivity. }
  destruct big; cbn [bytes_of].
  - rewrite (Z.add_comm (x * _)), G, rev_app_distr by exact Hb. reflexivity.
  - apply G. exact Ha.
Qed.
Lemma signed_mod : forall v, - 2 ^ 31 <= v < 2 ^ 31 -> as_i32 (v mod 2 ^ 32) = v.
Proof.
  intros v H. unfold as_i32, swrap. change (2 ^ (32 - 1)) with 2147483648. change (2 ^ 31) with 2147483648 in H. rewrite Z.add_mod_idemp_l by lia.
  rewrite Z.mod_small; lia.
Qed.

Section Any.
Context {M : Mode}.
Lemma get_f32_holds : forall big f en qs k a b, holds big f en -> f_vals f = map (fraction big) qs ->
  Forall (fun q => fits (f_typ f) (fst q) /\ fits (f_typ f) (snd q)) qs -> nth_error qs k = Some (a, b) ->
  exists x, get_f32 en (Z.of_nat k) = Ok x /\ reads_fraction x a b.
Proof.
  intros big f en qs k a b (_ & Ht & _ & Hd & He) Ev Hq Hk.
  destruct (proj1 (Forall_forall _ _) Hq _ (nth_error_In _ _ Hk)) as [Fa Fb]. cbn [fst snd] in Fa, Fb.
  assert (Hv : nth_error (f_vals f) k = Some (fraction big (a, b))) by (rewrite Ev; apply map_nth_error; exact Hk).
  assert (Et : f_typ f = 5 \/ f_typ f = 10) by (destruct Fa as [[E _]|[E _]]; auto).
  assert (Es : type_size (f_typ f) = 8) by (destruct Et as [->| ->]; reflexivity).
  pose proof (field_data_at big f k _ ltac:(lia) Hv) as A. rewrite Es in A. change (Z.to_nat 8) with 8%nat in A. rewrite fraction_bytes in A.
  apply at_app in A. destruct A as [A1 A2]. rewrite zlen_bytes_of in A2. change (Z.of_nat 4) with 4 in A2.
  pose proof (Z.mod_pos_bound a (2 ^ 32) ltac:(lia)) as Ha. pose proof (Z.mod_pos_bound b (2 ^ 32) ltac:(lia)) as Hb.
  apply ru32_at in A1; [|exact Ha]. apply ru32_at in A2; [|exact Hb].
  unfold get_f32. rewrite Ht, Hd, He. destruct Fa as [[E5 Fa]|[E10 Fa]].
  - destruct Fb as [[_ Fb]|[E _]]; [|lia]. rewrite E5. cbn [Z.eqb Pos.eqb]. rewrite A1, A2. cbn [bind]. rewrite !Z.mod_small by assumption.
    eexists. split; [reflexivity|]. apply fraction_read; lia.
  - destruct Fb as [[E _]|[_ Fb]]; [lia|]. rewrite E10. cbn [Z.eqb Pos.eqb].
    assert (R : forall buf pos v, ru32 big buf pos = Ok v -> ri32 big buf pos = Ok (as_i32 v)).
    { intros buf pos v E. unfold ri32, BEi32, LEi32. unfold ru32 in E. destruct big; rewrite E; reflexivity. }
    rewrite (R _ _ _ A1), (R _ _ _ A2). cbn [bind]. rewrite !signed_mod by assumption. eexists. split; [reflexivity|]. apply fraction_read; lia.
Qed.
Lemma get_f32_integer : forall big f en k v, plain_field f -> holds big f en -> nth_error (f_vals f) k = Some v ->
  exists x, get_f32 en (Z.of_nat k) = Ok x /\ nearest x (IZR v).
Proof.
  intros big f en k v (_ & _ & P3 & P4) H Hk. pose proof H as (_ & Ht & _).
  pose proof (get_u32_holds big f en k v P3 P4 H Hk) as G.
  assert (B : 0 <= v < 2 ^ 32).
  { rewrite Forall_forall in P4. specialize (P4 v (nth_error_In _ _ Hk)). destruct (integer_size _ P3) as [_ [S|[S|[S|[]]]]]; rewrite <- S in P4; cbn in P4 |- *; lia. }
  unfold get_f32. rewrite Ht. replace (f_typ f =? 5) with false by (unfold integer_type in P3; lia). replace (f_typ f =? 10) with false by (unfold integer_type in P3; lia).
  rewrite G. cbn [bind]. eexists. split; [reflexivity|]. apply int_near. lia.
Qed.

Theorem numbers_read : forall big fs tail, Forall kept_field fs -> NoDup (map f_tag fs) -> Z.of_nat (length fs) <= 4000 ->
  Z.of_nat (length (tiff_file big fs ++ tail)) < 2 ^ 32 ->
  exists root, ifd_new_file (tiff_file big fs ++ tail) = Ok root /\
  forall f, In f fs -> exists en, find_entry root (f_tag f) = Some en /\ e_count en = Z.of_nat (length (f_vals f)) /\
    (forall qs k a b, f_vals f = map (fraction big) qs -> Forall (fun q => fits (f_typ f) (fst q) /\ fits (f_typ f) (snd q)) qs ->
       nth_error qs k = Some (a, b) -> exists x, get_f32 en (Z.of_nat k) = Ok x /\ reads_fraction x a b) /\
    (forall k v, plain_field f -> nth_error (f_vals f) k = Some v -> exists x, get_f32 en (Z.of_nat k) = Ok x /\ nearest x (IZR v)).
Proof.
  intros big fs tail Hp Hnd Hn Hlen. destruct (parse_file big fs tail Hp Hnd Hn Hlen) as [es [S1 S2]].
  exists (mkifd [] [mkifd es [] 0 0 big] 0 0 big). split; [exact S2|].
  intros f Hf. destruct (lookup_stored big fs es (f_tag f) S1 Hnd) as [L _]. destruct (L f Hf eq_refl) as [en [E1 E2]].
  exists en. cbn [find_entry lookup]. rewrite E1. split; [reflexivity|]. pose proof E2 as (_ & T & C & _). split; [exact C|]. split.
  - intros qs k a b Ev Hq Hk. exact (get_f32_holds big f en qs k a b E2 Ev Hq Hk).
  - intros k v Pf Hk. exact (get_f32_integer big f en k v Pf E2 Hk).
Qed.

(** ** IEEE 754 *)
Lemma bits_read : forall sign e m, 0 <= e < 256 -> 0 <= m < 2 ^ 23 ->
  ieee sign e m (f32_bits ((if sign then 2 ^ 31 else 0) + e * 2 ^ 23 + m)).
Proof.
  intros sign e m He Hm. set (b := (if sign then 2 ^ 31 else 0) + e * 2 ^ 23 + m).
  assert (Eb : b = (if sign then 1 else 0) * 2147483648 + (e * 8388608 + m)) by (unfold b; change (2 ^ 23) with 8388608; change (2 ^ 31) with 2147483648; destruct sign; lia). change (2 ^ 23) with 8388608 in *.
  assert (S : Z.testbit b 31 = sign).
  { rewrite Z.testbit_eqb by lia. change (2 ^ 31) with 2147483648. rewrite Eb, Z.div_add_l, (Z.div_small (e * _ + _)) by lia. destruct sign; reflexivity. }
  assert (X : Z.land (Z.shiftr b 23) 255 = e).
  { rewrite Z.shiftr_div_pow2 by lia. change 255 with (Z.ones 8). rewrite Z.land_ones by lia. change (2 ^ 23) with 8388608. change (2 ^ 8) with 256.
    replace b with (m + ((if sign then 256 else 0) + e) * 8388608) by (rewrite Eb; destruct sign; lia). rewrite Z.div_add, (Z.div_small m), Z.add_0_l by lia.
    destruct sign; [rewrite <- (Z.mod_add (256 + e) (-1)) by lia|]; rewrite Z.mod_small; lia. }
  assert (Y : Z.land b 8388607 = m).
  { change 8388607 with (Z.ones 23). rewrite Z.land_ones by lia. change (2 ^ 23) with 8388608. replace b with (m + ((if sign then 256 else 0) + e) * 8388608) by (rewrite Eb; destruct sign; lia).
    rewrite Z.mod_add, Z.mod_small by lia. reflexivity. }
  unfold f32_bits. rewrite S, X, Y. clear S X Y. unfold ieee. destruct (e =? 255) eqn:E255; [reflexivity|].
  assert (G : forall mm ee, 0 <= mm < 16777216 -> -149 <= ee <= 104 -> mm = 0 \/ True ->
    let x := binary_normalize 24 128 f32_prec f32_emax mode_NE (if sign then - mm else mm) ee sign in
    is_finite x = true /\ Bsign x = sign /\ B2R x = ((if sign then -1 else 1) * (IZR mm * powerRZ 2 ee))%R).
  { intros mm ee Hmm Hee _. cbv zeta. pose proof (binary_normalize_correct 24 128 f32_prec f32_emax mode_NE (if sign then - mm else mm) ee sign) as C. cbv zeta in C.
    set (v := F2R {| Fnum := if sign then - mm else mm; Fexp := ee |}) in *.
    assert (GF : generic_format radix2 fe v).
    { rewrite fe_flt. apply generic_format_FLT. exists {| Fnum := if sign then - mm else mm; Fexp := ee |}; [reflexivity| |cbn; lia].
      cbn [Fnum]. change (radix2 ^ 24) with 16777216. destruct sign; lia. }
    assert (VV : v = ((if sign then -1 else 1) * (IZR mm * powerRZ 2 ee))%R).
    { unfold v, F2R. cbn [Fnum Fexp]. rewrite bpow_powerRZ. change (IZR radix2) with 2%R. destruct sign; [rewrite opp_IZR|]; ring. }
    change (round_mode mode_NE) with ZnearestE in C. rewrite (round_generic radix2 fe ZnearestE v GF) in C.
    rewrite Rlt_bool_true in C.
    - destruct C as [C1 [C2 C3]]. split; [exact C2|]. split; [|rewrite C1; exact VV]. rewrite C3.
      destruct (Z.eq_dec mm 0) as [->|N].
      + replace v with 0%R by (rewrite VV; ring). rewrite Rcompare_Eq by reflexivity. reflexivity.
      + assert (P : (0 < IZR mm * powerRZ 2 ee)%R) by (apply Rmult_lt_0_compat; [apply IZR_lt; lia|apply powerRZ_lt; lra]).
        destruct sign; rewrite VV; [rewrite Rcompare_Lt by lra|rewrite Rcompare_Gt by lra]; reflexivity.
    - unfold v. rewrite <- F2R_Zabs. apply Rlt_le_trans with (F2R (Float radix2 16777216 ee)).
      + apply F2R_lt. cbn [Fnum]. destruct sign; lia.
      + change 16777216 with (Zpower radix2 24). apply Rle_trans with (bpow radix2 (24 + ee)); [|apply bpow_le; lia].
        right. unfold F2R. cbn [Fnum Fexp]. rewrite IZR_Zpower by lia. rewrite <- bpow_plus. reflexivity. }
  destruct (e =? 0) eqn:E0.
  - apply (G m (-149)); [lia|lia|auto].
  - replace (2 ^ 23 + m) with (m + 8388608) by lia. change 0x800000 with 8388608. apply (G (m + 8388608) (e - 150)); [lia|lia|auto].
Qed.
Theorem floats_read : forall before after (sign : bool) e m, 0 <= e < 256 -> 0 <= m < 2 ^ 23 ->
  exists x, LEf32 (before ++ little 4 ((if sign then 2 ^ 31 else 0) + e * 2 ^ 23 + m) ++ after) (Z.of_nat (length before)) = Ok x /\ ieee sign e m x.
Proof.
  intros before after sign e m He Hm. unfold LEf32.
  pose proof (ru32_at false (before ++ little 4 ((if sign then 2 ^ 31 else 0) + e * 2 ^ 23 + m) ++ after) (Z.of_nat (length before)) ((if sign then 2 ^ 31 else 0) + e * 2 ^ 23 + m)) as R.
  cbn [ru32] in R. rewrite R.
  - cbn [bind]. eexists. split; [reflexivity|]. apply bits_read; assumption.
  - exists before, after. split; reflexivity.
  - change (2 ^ 23) with 8388608 in *. destruct sign; change (2 ^ 31) with 2147483648; lia.
Qed.

(** ** Filter patterns *)
Definition tag_letter (v : Z) : ascii := if v =? 0 then "R"%char else if v =? 1 then "G"%char else if v =? 2 then "B"%char else "U"%char.
Lemma from_tag_name : forall en vals, e_count en = Z.of_nat (length vals) -> (forall k v, nth_error vals k = Some v -> get_u32 en (Z.of_nat k) = Ok v) ->
  cfa_new_from_tag en = cfa_new (string_of_list_ascii (map tag_letter vals)).
Proof.
  intros en vals Hc Hv. unfold cfa_new_from_tag. rewrite Hc.
  rewrite (mapM_map _ (fun i => tag_letter (nth (Z.to_nat i) vals 0))).
  - cbn [bind]. do 2 f_equal. apply (nth_ext _ _ "U"%char "U"%char); rewrite !map_length, zrange_length; [lia|].
    intros n Hn. rewrite (nth_indep _ _ (tag_letter (nth (Z.to_nat 0) vals 0))) by (rewrite map_length, zrange_length; lia).
    rewrite (map_nth (fun i => tag_letter (nth (Z.to_nat i) vals 0))). change "U"%char with (tag_letter 3). rewrite map_nth. f_equal.
    rewrite zrange_nth by lia. rewrite (nth_indep _ 0 3) by lia. f_equal. lia.
  - intros i Hi. apply zrange_In in Hi. destruct (nth_error vals (Z.to_nat i)) as [v|] eqn:E; [|apply nth_error_None in E; lia].
    pose proof (Hv _ _ E) as G. rewrite Z2Nat.id in G by lia. rewrite G. cbn [bind]. rewrite (nth_error_nth _ _ 0 E). reflexivity.
Qed.
Lemma letters_back : forall l, list_ascii_of_string (string_of_list_ascii l) = l.
Proof. exact list_ascii_of_string_of_list_ascii. Qed.
Lemma letters_length : forall l, String.length (string_of_list_ascii l) = length l.
Proof. induction l as [|a l IH]; [reflexivity|]. cbn. rewrite IH. reflexivity. Qed.
Theorem pattern_read : forall big fs tail f w h, Forall plain_field fs -> NoDup (map f_tag fs) -> Z.of_nat (length fs) <= 4000 ->
  Z.of_nat (length (tiff_file big fs ++ tail)) < 2 ^ 32 -> In f fs -> f_tag f = T_CFAPattern -> dims (length (f_vals f)) = Some (w, h) ->
  exists root en, ifd_new_file (tiff_file big fs ++ tail) = Ok root /\ find_entry root T_CFAPattern = Some en /\
  (Forall (fun v => 0 <= v <= 2) (f_vals f) ->
   exists p, cfa_new_from_tag en = Ok p /\ forall row col, 0 <= row < 2 ^ 63 -> 0 <= col < 2 ^ 63 ->
     color_at p row col = Ok (nth (Z.to_nat (row mod h * w + col mod w)) (f_vals f) 0)) /\
  (Exists (fun v => 2 < v) (f_vals f) -> cfa_new_from_tag en = Panic).
Proof.
  intros big fs tail f w h Hp Hnd Hn Hlen Hf Htag Hd. destruct (round_trip big fs tail Hp Hnd Hn Hlen) as [root [E [R _]]].
  destruct (R f Hf) as [en [F [_ [C V]]]]. rewrite Htag in F. exists root, en. split; [exact E|]. split; [exact F|].
  pose proof (from_tag_name en (f_vals f) C V) as N. rewrite N. set (name := string_of_list_ascii (map tag_letter (f_vals f))).
  assert (Ld : dims (String.length name) = Some (w, h)) by (unfold name; rewrite letters_length, map_length; exact Hd). split.
  - intros Hv.
    assert (Pn : pattern_name name).
    { split; [rewrite Ld; discriminate|]. unfold known_letters, name. rewrite letters_back. intros c Hc. apply in_map_iff in Hc. destruct Hc as [v [<- Hin]].
      pose proof (proj1 (Forall_forall _ _) Hv v Hin) as B. cbv beta in B. assert (v = 0 \/ v = 1 \/ v = 2) as [Q|[Q|Q]] by lia; subst v; discriminate. }
    destruct (proj2 (cfa_new_ok_iff name) (or_intror Pn)) as [p Ep]. exists p. split; [exact Ep|]. intros row col Hr Hc.
    destruct (color_at_63 name p row col Pn Ep Hr Hc) as [v [E1 E2]]. rewrite E1. f_equal. unfold colour in E2. rewrite Ld in E2. unfold letter, name in E2. rewrite letters_back in E2.
    assert (Dp : 0 < w /\ 0 < h /\ Z.of_nat (length (f_vals f)) = w * h).
    { clear - Hd. unfold dims in Hd. set (n := length (f_vals f)) in *. clearbody n. do 145 (destruct n as [|n]; [try discriminate Hd; injection Hd as <- <-; cbn; lia|]). discriminate Hd. }
    destruct Dp as [D1 [D2 D3]]. pose proof (Z.mod_pos_bound row h D2) as B1. pose proof (Z.mod_pos_bound col w D1) as B2.
    set (i := row mod h * w + col mod w) in *. assert (Hi : 0 <= i < w * h) by (unfold i; nia).
    rewrite (nth_indep _ _ (tag_letter 0)) in E2 by (rewrite map_length; lia). rewrite map_nth in E2.
    assert (In (nth (Z.to_nat i) (f_vals f) 0) (f_vals f)) as Hin by (apply nth_In; lia).
    pose proof (proj1 (Forall_forall _ _) Hv _ Hin) as B. cbv beta in B. revert E2 B. generalize (nth (Z.to_nat i) (f_vals f) 0). intros x E2 B.
    assert (x = 0 \/ x = 1 \/ x = 2) as [Q|[Q|Q]] by lia; subst x; cbn in E2; congruence.
  - intros Hx. apply Exists_exists in Hx. destruct Hx as [v [Hin Hv]]. apply (cfa_new_bad_letter name "U"%char); [|reflexivity].
    unfold name. rewrite letters_back. apply in_map_iff. exists v. split; [|exact Hin]. unfold tag_letter. replace (v =? 0) with false by lia. replace (v =? 1) with false by lia. replace (v =? 2) with false by lia. reflexivity.
Qed.
End Any.
