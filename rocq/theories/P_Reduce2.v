(** Pictures that come out blank or not at all. *)
From Coq Require Import String ZArith List Bool Reals Lia Lra ZifyBool ZifyNat.
From Flocq Require Import Core BinarySingleNaN.
From Verif Require Import Base Num F32 Threads Cfa Transform Image Gofloat Demosaic Spec_Cfa Spec_Orient Spec_Rgb P_Base P_Cfa P_Threads P_Orient P_F32 P_Zip P_Gofloat P_Demosaic P_Demosaic2 P_Reduce P_Huff4.
Import ListNotations.
Local Open Scope Z_scope.

Section S.
Context {M : Mode}.
Variables (cbrt : f32 -> f32) (pow : f32 -> f32 -> f32).
Let N : Num f32 := f32_num cbrt pow.
Local Existing Instance N.

Lemma rggb_name : pattern_name "RGGB".
Proof. split; [discriminate|]. intros c H. cbn in H. repeat destruct H as [<-|H]; try discriminate. destruct H. Qed.
Lemma rggb : exists f, cfa_new "RGGB" = Ok f /\ cwidth f = 2.
Proof. destruct (cfa_new_real "RGGB" 2 2 eq_refl) as [f [E [_ [W _]]]]; [apply rggb_name|]. exists f. auto. Qed.
Lemma plain_ok : forall f w h v, 0 < w -> 0 < h -> w * h < 2 ^ 40 -> 0 <= v < 65536 -> raw_ok (plain f w h v) /\ crop_ok (plain f w h v).
Proof.
  intros f w h v Hw Hh B Hv. split.
  - unfold raw_ok, plain. cbn [i_width i_height i_cpp i_data]. split; [exact Hw|]. split; [exact Hh|]. split; [lia|]. split; [rewrite repeat_length; nia|]. split.
    + remember (w * h) as p. change (2 ^ 40) with 1099511627776 in B. change (2 ^ 61) with 2305843009213693952. lia.
    + apply Forall_forall. intros x Hx. apply repeat_spec in Hx. subst x. exact Hv.
  - unfold crop_ok, plain, top, right, bottom, left. cbn. lia.
Qed.
Lemma scale_20 : n_lt (n_div (n_of 20) (n_of 10) : f32) (min_scale 2) = false.
Proof. vm_compute. reflexivity. Qed.
Lemma scale_10 : n_lt (n_div (n_of 10) (n_of 5) : f32) (min_scale 2) = false.
Proof. vm_compute. reflexivity. Qed.
Lemma size_20_3 : new_size 20 3 10 10 = (n_div (n_of 20) (n_of 10) : f32, 10, 1).
Proof.
  unfold new_size. cbn [orb Z.eqb Pos.eqb].
  assert (E : n_lt (n_div (n_of 20) (n_of 10) : f32) (n_div (n_of 3) (n_of 10)) = false) by (vm_compute; reflexivity). rewrite E.
  assert (E2 : to_usize (n_div (n_of 3) (n_div (n_of 20) (n_of 10)) : f32) = 1) by (vm_compute; reflexivity). rewrite E2. reflexivity.
Qed.
Lemma size_1_10 : new_size 1 10 5 5 = (n_div (n_of 10) (n_of 5) : f32, 0, 5).
Proof.
  unfold new_size. cbn [orb Z.eqb Pos.eqb].
  assert (E : n_lt (n_div (n_of 1) (n_of 5) : f32) (n_div (n_of 10) (n_of 5)) = true) by (vm_compute; reflexivity). rewrite E.
  assert (E2 : to_usize (n_div (n_of 1) (n_div (n_of 10) (n_of 5)) : f32) = 0) by (vm_compute; reflexivity). rewrite E2. reflexivity.
Qed.
Lemma blank_columns : forall f, cfa_new "RGGB" = Ok f -> cwidth f = 2 ->
  exists buf out, gofloat (plain f 20 3 1000) = Ok buf /\ demosaic_and_scale (plain f 20 3 1000) buf 10 10 = Ok out /\
    owidth out = 10 /\ oheight out = 1 /\ forall k, 0 <= k < 4 -> sample_at out 0 9 k = Some (f32_of 0).
Proof.
  intros f EN W2. destruct (plain_ok f 20 3 1000) as [RO CO]; try lia.
  destruct (demosaic_exists cbrt pow (plain f 20 3 1000) "RGGB" RO CO eq_refl EN rggb_name) as [buf [_ [EB [_ [_ [_ [_ [_ [WB [CB [BW [BH _]]]]]]]]]]]].
  change (owidth buf = 20) in BW. change (oheight buf = 3) in BH.
  destruct (crop_color (plain f 20 3 1000) "RGGB" RO CO eq_refl EN rggb_name) as [cfa [Ec Hc]].
  destruct (scaled_ok (f32_to_pos cbrt pow) (f32_to_min cbrt pow) buf WB) with (cfa := cfa) (img := plain f 20 3 1000) (nw := 10) (nh := 1) as [out [EO [WO [OW [OH [OC P]]]]]].
  - rewrite BW. reflexivity.
  - rewrite BH. reflexivity.
  - intros y x Hy Hx. exists (colf (plain f 20 3 1000) "RGGB" y x). destruct (Hc y x) as [H1 [H2 _]]; [unfold plain, top, bottom; cbn; lia|unfold plain, left, right; cbn; lia|]. auto.
  - exact CB.
  - exact Ec.
  - lia.
  - lia.
  - reflexivity.
  - exists buf, out. split; [exact EB|]. split.
    + unfold demosaic_and_scale. rewrite BW, BH, CB. change (cwidth (i_cfa (plain f 20 3 1000))) with (cwidth f). rewrite W2.
      rewrite size_20_3. rewrite scale_20. cbn [orb Z.eqb Pos.eqb negb]. exact EO.
    + split; [exact OW|]. split; [exact OH|]. intros k Hk. destruct (P 0 9 k) as [s [n [Es En]]]; [lia|lia|lia|].
      rewrite (blank_column (f32_to_pos cbrt pow) (f32_to_min cbrt pow) buf WB) in Es.
      * apply Ok_inj in Es. apply pair_equal_spec in Es. destruct Es as [<- <-]. etransitivity; [exact En|]. unfold at0. rewrite nth_repeat. vm_compute. reflexivity.
      * rewrite BW. reflexivity.
      * intros y x Hy Hx. exists (colf (plain f 20 3 1000) "RGGB" y x). destruct (Hc y x) as [H1 [H2 _]]; [unfold plain, top, bottom; cbn; lia|unfold plain, left, right; cbn; lia|]. auto.
      * rewrite BW, BH. assert (E : to_usize (n_floor (n_mul (n_of 9) (n_div (n_of 3) (n_of 1)))) = 27) by (vm_compute; reflexivity).
        unfold N in E. rewrite E. lia.
Qed.
Lemma no_picture : forall f, cfa_new "RGGB" = Ok f -> cwidth f = 2 ->
  exists buf, gofloat (plain f 1 10 1000) = Ok buf /\ demosaic_and_scale (plain f 1 10 1000) buf 5 5 = Panic.
Proof.
  intros f EN W2. destruct (plain_ok f 1 10 1000) as [RO CO]; try lia.
  destruct (demosaic_exists cbrt pow (plain f 1 10 1000) "RGGB" RO CO eq_refl EN rggb_name) as [buf [_ [EB [_ [_ [_ [_ [_ [WB [CB [BW [BH _]]]]]]]]]]]].
  change (owidth buf = 1) in BW. change (oheight buf = 10) in BH.
  destruct (crop_color (plain f 1 10 1000) "RGGB" RO CO eq_refl EN rggb_name) as [cfa [Ec _]].
  exists buf. split; [exact EB|]. unfold demosaic_and_scale. rewrite BW, BH, CB. change (cwidth (i_cfa (plain f 1 10 1000))) with (cwidth f). rewrite W2.
  rewrite size_1_10. rewrite scale_10. cbn [orb Z.eqb Pos.eqb negb].
  unfold scaled. rewrite Ec. cbn [bind]. reflexivity.
Qed.
End S.

Lemma demosaic_total : forall {M : Mode} cbrt pow (img : rawimage f32) name, let N := f32_num cbrt pow in
  raw_ok img -> crop_ok img -> i_cpp img = 1 -> cfa_new name = Ok (i_cfa img) -> pattern_name name ->
  exists buf out, gofloat img = Ok buf /\ demosaic_and_scale img buf 0 0 = Ok out /\ well_formed out /\ ocolors out = 4 /\
    owidth out = i_width img - left img - right img /\ oheight out = i_height img - top img - bottom img.
Proof.
  intros M cbrt pow img name N RO CO C1 EN PN.
  destruct (demosaic_exists cbrt pow img name RO CO C1 EN PN) as [buf [out H]]. exists buf, out. tauto.
Qed.
Lemma no_picture_any : exists f, forall (M : Mode) cbrt pow, let N := f32_num cbrt pow in
  cfa_new "RGGB" = Ok f /\ raw_ok (plain f 1 10 1000) /\ crop_ok (plain f 1 10 1000) /\
  exists buf, gofloat (plain f 1 10 1000) = Ok buf /\ demosaic_and_scale (plain f 1 10 1000) buf 5 5 = Panic.
Proof.
  destruct rggb as [f [E W]]. exists f. intros M cbrt pow N. split; [exact E|]. destruct (plain_ok f 1 10 1000) as [H1 H2]; try lia.
  split; [exact H1|]. split; [exact H2|]. apply no_picture; assumption.
Qed.
Lemma blank_columns_any : exists f, forall (M : Mode) cbrt pow, let N := f32_num cbrt pow in
  cfa_new "RGGB" = Ok f /\ raw_ok (plain f 20 3 1000) /\ crop_ok (plain f 20 3 1000) /\
  exists buf out, gofloat (plain f 20 3 1000) = Ok buf /\ demosaic_and_scale (plain f 20 3 1000) buf 10 10 = Ok out /\
    owidth out = 10 /\ oheight out = 1 /\ forall k, 0 <= k < 4 -> sample_at out 0 9 k = Some (f32_of 0).
Proof.
  destruct rggb as [f [E W]]. exists f. intros M cbrt pow N. split; [exact E|]. destruct (plain_ok f 20 3 1000) as [H1 H2]; try lia.
  split; [exact H1|]. split; [exact H2|]. apply blank_columns; assumption.
Qed.
