(** The whole conversion to sRGB bytes. *)
From Coq Require Import String ZArith List Bool Reals Lia Lra ZifyBool ZifyNat.
From Flocq Require Import Core BinarySingleNaN.
From Verif Require Import Base Num F32 Threads Cfa Transform Image Gofloat Demosaic Colors Pipeline Spec_Cfa Spec_Orient Spec_Rgb
  P_Base P_Cfa P_Orient P_F32 P_Scale P_Scale2 P_Gofloat P_Gofloat2 P_Demosaic P_Demosaic2 P_Reduce P_Color2 P_Srgb1.
Import ListNotations.
Local Open Scope Z_scope.

Section S.
Context {M : Mode}.
Variables (cbrt : f32 -> f32) (pow : f32 -> f32 -> f32).
Let N : Num f32 := f32_num cbrt pow.
Local Existing Instance N.

Lemma orient_rotate : forall {A} (z : A) b o, orient z b o = rotate_buffer z b o.
Proof. intros A z b o. destruct o; reflexivity. Qed.
Lemma swaps_sideways : forall o, swaps o = sideways o.
Proof. intros []; reflexivity. Qed.

(** From four components on. *)
Lemma finish : forall img b linear, well_formed b -> ocolors b = 4 ->
  exists out, (channel4 <- level_and_balance img b ;; channel3 <- camera_to_lab img channel4 ;; channel3 <- base_curve channel3 ;; channel3 <- lab_to_rec709 channel3 ;;
    channel3 <- (if linear : bool then Ok channel3 else gamma channel3) ;; orient n0 channel3 (i_orientation img)) = Ok out /\
  well_formed out /\ ocolors out = 3 /\
  owidth out = (if sideways (i_orientation img) then oheight b else owidth b) /\
  oheight out = (if sideways (i_orientation img) then owidth b else oheight b).
Proof.
  intros img b linear WF C4. destruct (level_ok img b WF C4) as [b1 [E1 [W1 [X1 [Y1 [C1 _]]]]]]. rewrite E1. cbn [bind].
  destruct (lab_ok (N := N) (labf_ok cbrt pow) img b1 W1 C1) as [b2 [E2 [W2 [X2 [Y2 [C2 _]]]]]]. rewrite E2. cbn [bind].
  destruct (curve_ok b2 W2 C2) as [s [b3 [_ [_ [E3 [W3 [X3 [Y3 [C3 _]]]]]]]]]. rewrite E3. cbn [bind].
  destruct (rec709_ok b3 W3 C3) as [b4 [E4 [W4 [X4 [Y4 [D4 _]]]]]]. rewrite E4. cbn [bind].
  assert (G : exists b5, (if linear then Ok b4 else gamma b4) = Ok b5 /\ well_formed b5 /\ owidth b5 = owidth b4 /\ oheight b5 = oheight b4 /\ ocolors b5 = ocolors b4).
  { destruct linear; [exists b4; auto|]. destruct (gamma_step_ok (N := N) (fun v => ex_intro _ _ (gamma_ok cbrt pow v)) b4 W4) as [b5 [E5 [W5 [X5 [Y5 [C5 _]]]]]]. exists b5. auto. }
  destruct G as [b5 [-> [W5 [X5 [Y5 C5]]]]]. cbn [bind]. rewrite orient_rotate. destruct (rotate_ok n0 b5 (i_orientation img) W5) as [r [Er [Wr [Cr [Xr [Yr _]]]]]].
  exists r. split; [exact Er|]. split; [exact Wr|]. split; [congruence|]. rewrite swaps_sideways in Xr, Yr. rewrite Xr, Yr. destruct (sideways (i_orientation img)); split; congruence.
Qed.

Variable img : rawimage f32.
Hypothesis RO : raw_ok img.
Hypothesis CO : crop_ok img.
Hypothesis US : usual img.
Notation W := (i_width img - left img - right img).
Notation H := (i_height img - top img - bottom img).
Hypothesis SW : W < 2 ^ 23.
Hypothesis SH : H < 2 ^ 23.
Lemma pos_size : 0 < W /\ 0 < H /\ W * H * 4 < 2 ^ 63.
Proof.
  pose proof CO as (T & Ri & B & L & X & Y). split; [lia|]. split; [lia|]. change (2 ^ 23) with 8388608 in *. change (2 ^ 63) with 9223372036854775808. nia.
Qed.
Lemma reduced_pos : forall mw mh (s : f32) nw nh, room W H mw mh -> mw <> 0 -> mh <> 0 -> new_size W H mw mh = (s, nw, nh) ->
  is_finite s = true /\ ((1 < B2R s)%R -> 0 < nw <= W /\ 0 < nh <= H).
Proof.
  intros mw mh s nw nh R N1 N2 E. destruct R as [R|[R|(R1 & R2 & R3 & R4 & R5 & R6)]]; try lia. destruct pos_size as [P1 [P2 _]].
  destruct (new_size_ok cbrt pow W H mw mh) as [s' [nw' [nh' [E' [F [_ C]]]]]]; [unfold size; lia..|]. assert (E2 : new_size (N := N) W H mw mh = (s', nw', nh')) by exact E'. clear E'. rename E2 into E'. rewrite E in E'.
  apply pair_equal_spec in E'. destruct E' as [E' <-]. apply pair_equal_spec in E'. destruct E' as [<- <-]. split; [exact F|]. intros L.
  destruct C as [[_ (C1 & C2 & C3 & C4 & C5 & _ & C6)]|[C _]]; [|lra]. specialize (C6 R3 R4). set (w := W) in *. set (h := H) in *. clearbody w h.
  destruct C5 as [-> | ->].
  - split; [lia|]. split; [|lia]. assert (0 < nh); [|lia]. destruct (Z.eq_dec nh 0) as [->|]; [|lia]. exfalso. rewrite Z.mul_0_r, Z.sub_0_r in C6. rewrite Z.abs_eq in C6 by nia. nia.
  - split; [|lia]. split; [|lia]. assert (0 < nw); [|lia]. destruct (Z.eq_dec nw 0) as [->|]; [|lia]. exfalso. rewrite Z.mul_0_l, Z.sub_0_l, Z.abs_opp, Z.abs_eq in C6 by nia. nia.
Qed.
Lemma any_size : forall mw mh, room W H mw mh -> exists (s : f32) nw nh, new_size W H mw mh = (s, nw, nh) /\ is_finite s = true /\ ((1 < B2R s)%R -> 0 < nw <= W /\ 0 < nh <= H).
Proof.
  intros mw mh R. destruct (new_size W H mw mh) as [[s nw] nh] eqn:E. exists s, nw, nh. split; [reflexivity|].
  destruct (Z.eq_dec mw 0) as [Z1|Z1]; [|destruct (Z.eq_dec mh 0) as [Z2|Z2]; [|apply (reduced_pos mw mh s nw nh); assumption]];
  (unfold new_size in E; replace ((mw =? 0) || (mh =? 0)) with true in E by lia; apply pair_equal_spec in E; destruct E as [E <-]; apply pair_equal_spec in E; destruct E as [<- <-];
   destruct (n0_val cbrt pow) as [F V]; split; [exact F|]; intros L; fold N in V; unfold f32 in *; lra).
Qed.
Lemma smaller : forall a b, 0 < a <= W -> 0 < b <= H -> a * b * 4 < 2 ^ 63.
Proof.
  intros a b Ha Hb. change (2 ^ 23) with 8388608 in *. change (2 ^ 63) with 9223372036854775808.
  set (w := W) in *. set (h := H) in *. clearbody w h. nia.
Qed.
Lemma four_ok : forall buf mw mh, well_formed buf -> ocolors buf = 4 -> owidth buf = W -> oheight buf = H -> room W H mw mh ->
  exists out, demosaic_and_scale img buf mw mh = Ok out /\ well_formed out /\ ocolors out = 4 /\ owidth out <= W /\ oheight out <= H.
Proof.
  intros buf mw mh WB C4 BW BH R. unfold demosaic_and_scale. rewrite BW, BH. destruct (any_size mw mh R) as [s [nw [nh [-> [F P]]]]].
  rewrite C4. change (negb (4 =? 1)) with true. rewrite orb_true_r. change (4 =? 4) with true. cbn [bind].
  destruct (n_lt n1 s) eqn:L.
  - destruct (n1_val cbrt pow) as [F1 V1]. apply (lt_fin n1 s F1 F) in L. unfold N in L. rewrite V1 in L. destruct (P L) as [Pw Ph].
    destruct (scale_down_ok (N := N) (f32_to_pos cbrt pow) (f32_to_min cbrt pow) buf WB) with (nw := nw) (nh := nh) as [out [E [WO [O1 [O2 [O3 _]]]]]]; [lia|lia|lia|lia|lia|rewrite C4; apply smaller; assumption|].
    exists out. split; [exact E|]. split; [exact WO|]. split; [lia|]. lia.
  - exists buf. split; [reflexivity|]. split; [exact WB|]. split; [exact C4|]. lia.
Qed.
Lemma usual_ok : forall mw mh, room W H mw mh ->
  exists buf out, gofloat img = Ok buf /\ demosaic_and_scale img buf mw mh = Ok out /\ well_formed out /\ ocolors out = 4 /\ owidth out <= W /\ oheight out <= H.
Proof.
  intros mw mh R. destruct US as [[C1 [name [PN EN]]]|[[C1 V]|C3]].
  - destruct (sensor_crop img RO CO C1 (valid img name EN PN)) as [buf [Eb [WB [CB [BW [BH _]]]]]]. exists buf.
    destruct (crop_color img name RO CO C1 EN PN) as [cfa [Ec Hc]].
    assert (G : exists out, demosaic_and_scale img buf mw mh = Ok out /\ well_formed out /\ ocolors out = 4 /\ owidth out <= W /\ oheight out <= H).
    2:{ destruct G as [out G]. exists out. tauto. }
    unfold demosaic_and_scale. rewrite BW, BH. destruct (any_size mw mh R) as [s [nw [nh [-> [F P]]]]]. destruct (n1_val cbrt pow) as [F1 V1].
    destruct (min_scale_val cbrt pow (cwidth (i_cfa img))) as [F2 V2]. destruct pos_size as [P1 [P2 P3]].
    destruct (n_lt s (min_scale (cwidth (i_cfa img))) || negb (ocolors buf =? 1)) eqn:B.
    + rewrite CB. change (1 =? 4) with false. cbv iota.
      destruct (mem_bound cfa buf (colf img name) WB CB) with (img := img) as [mid [Ef [WM [C4 [OW [OH _]]]]]].
      { intros y x Hy Hx. destruct (Hc y x) as [A1 [A2 _]]; [lia|lia|]. auto. }
      { rewrite BW, BH. exact P3. }
      { exact Ec. }
      rewrite Ef. cbn [bind]. destruct (n_lt n1 s) eqn:L.
      * apply (lt_fin n1 s F1 F) in L. unfold N in L. rewrite V1 in L. destruct (P L) as [Pw Ph].
        destruct (scale_down_ok (N := N) (f32_to_pos cbrt pow) (f32_to_min cbrt pow) mid WM) with (nw := nw) (nh := nh) as [out [E [WO [O1 [O2 [O3 _]]]]]]; [lia|lia|lia|lia|lia|rewrite C4; apply smaller; assumption|].
        exists out. split; [exact E|]. split; [exact WO|]. split; [lia|]. lia.
      * exists mid. split; [reflexivity|]. split; [exact WM|]. split; [exact C4|]. lia.
    + apply orb_false_iff in B. destruct B as [B _]. apply (lt_fin_false s _ F F2) in B. destruct (P ltac:(unfold N in *; lra)) as [Pw Ph].
      destruct (scaled_ok (N := N) (f32_to_pos cbrt pow) (f32_to_min cbrt pow) buf WB) with (cfa := cfa) (img := img) (nw := nw) (nh := nh) as [out [E [WO [O1 [O2 [O3 _]]]]]]; [lia|lia| |exact CB|exact Ec|lia|lia|apply smaller; assumption|].
      { intros y x Hy Hx. destruct (Hc y x) as [A1 [A2 _]]; [lia|lia|]. exists (colf img name y x). auto. }
      exists out. split; [exact E|]. split; [exact WO|]. split; [exact O3|]. lia.
  - destruct (mono_crop img RO CO C1 V) as [buf [Eb [WB [CB [BW [BH _]]]]]]. exists buf. destruct (four_ok buf mw mh WB CB BW BH R) as [out G]. exists out. tauto.
  - destruct (rgb_rows img RO CO C3) as [buf [Eb [WB [CB [BW [BH _]]]]]]. exists buf. destruct (four_ok buf mw mh WB CB BW BH R) as [out G]. exists out. tauto.
Qed.
Lemma decoder_ok : forall mw mh linear, room (shown_width img) (shown_height img) mw mh ->
  exists out, op_decoder img mw mh linear = Ok out /\ well_formed out /\ ocolors out = 3 /\ owidth out <= shown_width img /\ oheight out <= shown_height img.
Proof.
  intros mw mh linear R. unfold op_decoder.
  assert (E : exists hf vf, to_flips (i_orientation img) = (sideways (i_orientation img), hf, vf)) by (destruct (i_orientation img); do 2 eexists; reflexivity).
  destruct E as [hf [vf ->]]. unfold shown_width, shown_height in *.
  set (mw' := if sideways (i_orientation img) then mh else mw). set (mh' := if sideways (i_orientation img) then mw else mh).
  assert (E : (if sideways (i_orientation img) then (mh, mw) else (mw, mh)) = (mw', mh')) by (unfold mw', mh'; destruct (sideways (i_orientation img)); reflexivity).
  rewrite E. clear E. assert (R' : room W H mw' mh') by (unfold mw', mh', room in *; destruct (sideways (i_orientation img)); lia).
  destruct (usual_ok mw' mh' R') as [buf [b [Eb [Ed [WB [C4 [BW BH]]]]]]]. rewrite Eb. cbn [bind]. rewrite Ed. cbn [bind].
  destruct (finish img b linear WB C4) as [out [Ef [WO [C3 [X Y]]]]]. exists out. split; [exact Ef|]. split; [exact WO|]. split; [exact C3|]. rewrite X, Y.
  destruct (sideways (i_orientation img)); lia.
Qed.
Lemma srgb_ok : forall mw mh, room (shown_width img) (shown_height img) mw mh ->
  exists w h bytes, to_srgb img mw mh = Ok (w, h, bytes) /\ 0 < w <= shown_width img /\ 0 < h <= shown_height img /\
    Z.of_nat (length bytes) = w * h * 3 /\ Forall (fun b => 0 <= b <= 255) bytes.
Proof.
  intros mw mh R. unfold to_srgb, to_rgb. destruct (decoder_ok mw mh false R) as [out [E [(Hw & Hh & _ & L & _) [C3 [X Y]]]]]. rewrite E. cbn [bind]. cbv zeta.
  do 3 eexists. split; [reflexivity|]. split; [lia|]. split; [lia|]. rewrite C3 in L.
  assert (LL : length (map srgb_byte (firstn (Z.to_nat (owidth out * oheight out * 3)) (odata out))) = Z.to_nat (owidth out * oheight out * 3)) by (rewrite map_length, firstn_length; lia).
  rewrite LL, Nat.sub_diag. cbn [repeat]. rewrite app_nil_r. split; [rewrite LL; nia|].
  apply Forall_forall. intros b Hb. apply in_map_iff in Hb. destruct Hb as [v [<- _]]. apply (byte_e cbrt pow v).
Qed.
End S.
