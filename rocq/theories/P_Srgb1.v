(** Steps of the conversion that work on one pixel at a time. *)
From Coq Require Import String ZArith List Bool Lia ZifyBool ZifyNat.
From Verif Require Import Base Num Threads Cfa Transform Image Gofloat Colors Pipeline Spec_Orient P_Base P_Threads P_Orient P_Zip P_Spline.
Import ListNotations.
Local Open Scope Z_scope.

Section S.
Context {M : Mode} {A : Type} {N : Num A}.
Notation at0 := (at0 (n0 : A)).
(** Samples [k*n] to [k*n+n-1] of a line. *)
Definition run (b : opbuf A) (n r k : Z) : list A := firstn (Z.to_nat n) (skipn (Z.to_nat (r * (owidth b * ocolors b) + k * n)) (odata b)).
Definition pixel (b : opbuf A) (y x : Z) : list A := run b (ocolors b) y x.
Lemma run_len : forall b n q r k, well_formed b -> 0 < n -> owidth b * ocolors b = q * n -> 0 <= r < oheight b -> 0 <= k < q -> zlen (run b n r k) = n.
Proof.
  intros b n q r k (Hw & Hh & Hc & L & _) Hn Q Hr Hk. unfold run. rewrite zlen_firstn, zlen_skipn. unfold zlen. rewrite L.
  replace (owidth b * oheight b * ocolors b) with (oheight b * (owidth b * ocolors b)) by ring. rewrite Q.
  assert (r * (q * n) + k * n + n <= oheight b * (q * n)) by nia. assert (0 <= r * (q * n) + k * n) by nia. lia.
Qed.
Lemma run_at0 : forall b n r k j, 0 <= r * (owidth b * ocolors b) + k * n -> 0 <= j < n -> at0 (run b n r k) j = at0 (odata b) (r * (owidth b * ocolors b) + (k * n + j)).
Proof. intros b n r k j H0 Hj. unfold run. rewrite at0_firstn by exact Hj. rewrite at0_skipn by lia. f_equal. lia. Qed.
Lemma mutate_each : forall n q (f : list A -> res (list A)) b, well_formed b -> 0 < n -> owidth b * ocolors b = q * n ->
  (forall p, zlen p = n -> exists p', f p = Ok p' /\ zlen p' = n) ->
  exists out, mutate_pixels (Z.to_nat n) f b = Ok out /\ well_formed out /\ owidth out = owidth b /\ oheight out = oheight b /\ ocolors out = ocolors b /\
    forall r k, 0 <= r < oheight b -> 0 <= k < q -> f (run b n r k) = Ok (run out n r k).
Proof.
  intros n q f b WF Hn Q Hf. pose proof WF as (Hw & Hh & Hc & L & B).
  assert (QK : forall k, k * n < owidth b * ocolors b -> k < q) by (intros k Hk; nia).
  set (g := fun r k => match f (run b n r k) with Ok p' => p' | _ => [] end).
  destruct (mutate_ok (n0 : A) n f b (fun r k j => at0 (g r k) j)) as [d [E [Ld V]]]; [exact Hn|exact Hw|lia|exact Hc|unfold zlen; exact L|exists q; exact Q| |].
  - intros r k p Hr Hk Hkn Lp Np. assert (K := QK k Hkn). assert (LR : zlen (run b n r k) = n) by (apply run_len with (q := q); auto).
    assert (p = run b n r k) as ->.
    { apply at0_ext with (z := (n0 : A)); [lia|]. intros i Hi. rewrite Np, run_at0 by (nia || lia). reflexivity. }
    unfold g. destruct (Hf _ LR) as [p' [E' L']]. rewrite E'. exists p'. split; [reflexivity|]. split; [exact L'|]. reflexivity.
  - eexists. split; [exact E|]. assert (WO : well_formed (mkop (owidth b) (oheight b) (ocolors b) d)) by (apply well_formed_mk; try assumption; lia).
    split; [exact WO|]. cbn [owidth oheight ocolors]. do 3 (split; [reflexivity|]). intros r k Hr Hk.
    destruct (Hf (run b n r k)) as [p' [E' L']]; [apply run_len with (q := q); auto|]. rewrite E'. f_equal.
    assert (LO : zlen (run (mkop (owidth b) (oheight b) (ocolors b) d) n r k) = n) by (apply run_len with (q := q); auto).
    apply at0_ext with (z := (n0 : A)); [lia|]. intros j Hj. rewrite L' in Hj. assert (0 <= k * n) by nia. assert (0 <= r * (owidth b * ocolors b)) by nia.
    rewrite run_at0 by (cbn [owidth ocolors]; lia). cbn [odata owidth ocolors]. rewrite V; [|exact Hr|lia|rewrite Q; nia|exact Hj]. unfold g. rewrite E'. reflexivity.
Qed.
Lemma mutate_each_pixel : forall (f : list A -> res (list A)) b, well_formed b -> (forall p, zlen p = ocolors b -> exists p', f p = Ok p' /\ zlen p' = ocolors b) ->
  exists out, mutate_pixels (Z.to_nat (ocolors b)) f b = Ok out /\ well_formed out /\ owidth out = owidth b /\ oheight out = oheight b /\ ocolors out = ocolors b /\
    forall y x, 0 <= y < oheight b -> 0 <= x < owidth b -> f (pixel b y x) = Ok (pixel out y x).
Proof.
  intros f b WF Hf. pose proof WF as (Hw & Hh & Hc & _). destruct (mutate_each (ocolors b) (owidth b) f b WF Hc eq_refl Hf) as [out [E [W [O1 [O2 [O3 P]]]]]].
  exists out. split; [exact E|]. split; [exact W|]. do 3 (split; [assumption|]). intros y x Hy Hx. unfold pixel. rewrite O3. apply P; assumption.
Qed.

(** *** The steps *)
Lemma three : forall p : list A, zlen p = 3 -> exists a b c, p = [a; b; c].
Proof. intros [|a [|b [|c [|d p]]]] H; unfold zlen in H; cbn in H; try lia. eauto. Qed.
Lemma four : forall p : list A, zlen p = 4 -> exists a b c d, p = [a; b; c; d].
Proof. intros [|a [|b [|c [|d [|e p]]]]] H; unfold zlen in H; cbn in H; try lia. eauto. Qed.
Lemma level_ok : forall img b, well_formed b -> ocolors b = 4 ->
  exists out, level_and_balance img b = Ok out /\ well_formed out /\ owidth out = owidth b /\ oheight out = oheight b /\ ocolors out = 4 /\
    forall y x, 0 <= y < oheight b -> 0 <= x < owidth b -> exists r g u e, pixel b y x = [r; g; u; e] /\
      let mul := level_mul (level_coeffs img) in
      let value c v := level_value (n_of (at4 (i_blacks img) c)) (n_of (at4 (i_whites img) c)) (at4 mul c) v in
      pixel out y x = [value 0 r; value 1 g; value 2 u; value 3 e].
Proof.
  intros img b WF C4. pose proof WF as (Hw & Hh & Hc & _).
  set (mul := level_mul (level_coeffs img)). set (value := fun c v => level_value (n_of (at4 (i_blacks img) c)) (n_of (at4 (i_whites img) c)) (at4 mul c) v).
  set (f := fun pix => rfold (fun c pix => v <- get pix c ;; upd pix c (value c v)) (zrange 0 4) pix).
  assert (F : forall r g u e, f [r; g; u; e] = Ok [value 0 r; value 1 g; value 2 u; value 3 e]) by reflexivity.
  destruct (mutate_each_pixel f b WF) as [out [E [W [O1 [O2 [O3 P]]]]]].
  { intros p Lp. rewrite C4 in Lp. destruct (four p Lp) as [r [g [u [e ->]]]]. eexists. split; [apply F|]. rewrite C4. reflexivity. }
  exists out. rewrite C4 in E. split; [exact E|]. split; [exact W|]. do 2 (split; [assumption|]). split; [lia|]. intros y x Hy Hx. specialize (P y x Hy Hx).
  assert (Lp : zlen (pixel b y x) = 4) by (rewrite <- C4; apply run_len with (q := owidth b); auto).
  destruct (four _ Lp) as [r [g [u [e Ep]]]]. exists r, g, u, e. split; [exact Ep|]. rewrite Ep, F in P. cbv zeta. symmetry. injection P as P. exact P.
Qed.
Lemma curve_ok : forall b, well_formed b -> ocolors b = 3 -> 
  exists s out, spline_new base_xs base_ys = Ok s /\ is_spline n0 base_xs base_ys s /\ base_curve b = Ok out /\ well_formed out /\ owidth out = owidth b /\ oheight out = oheight b /\ ocolors out = 3 /\
    forall y x, 0 <= y < oheight b -> 0 <= x < owidth b -> exists l c d l', pixel b y x = [l; c; d] /\ interpolate s l = Ok l' /\ pixel out y x = [l'; c; d].
Proof.
  intros b WF C3. destruct (spline_new_ok n0 base_xs base_ys) as [s [Es Is]]; [unfold zlen; cbn; lia|reflexivity|]. exists s. unfold base_curve. rewrite Es. cbn [bind].
  assert (T : forall l, exists l', interpolate s l = Ok l') by (apply (interpolate_total n0 base_xs base_ys); [unfold zlen; cbn; lia|reflexivity|exact Is|reflexivity]).
  assert (F : forall l c d l', interpolate s l = Ok l' -> curve_pixel s [l; c; d] = Ok [l'; c; d]) by (intros l c d l' El; unfold curve_pixel; change (get [l; c; d] 0) with (Ok l); cbn [bind]; rewrite El; reflexivity).
  destruct (mutate_each_pixel (curve_pixel s) b WF) as [out [E [W [O1 [O2 [O3 P]]]]]].
  { intros p Lp. rewrite C3 in Lp. destruct (three p Lp) as [l [c [d ->]]]. destruct (T l) as [l' El]. eexists. split; [apply F, El|]. rewrite C3. reflexivity. }
  exists out. rewrite C3 in E. split; [reflexivity|]. split; [exact Is|]. split; [exact E|]. split; [exact W|]. do 2 (split; [assumption|]). split; [lia|]. intros y x Hy Hx. specialize (P y x Hy Hx).
  assert (Lp : zlen (pixel b y x) = 3) by (rewrite <- C3; pose proof WF as (_ & _ & Hc & _); apply run_len with (q := owidth b); auto).
  destruct (three _ Lp) as [l [c [d Ep]]]. destruct (T l) as [l' El]. exists l, c, d, l'. split; [exact Ep|]. split; [exact El|]. rewrite Ep, (F _ _ _ _ El) in P. symmetry. injection P as P. exact P.
Qed.
Definition rec709 (l a b : A) : list A :=
  let m := xyz_to_rec709_matrix in let c := lab_to_xyz l a b in
  let dot (v : vec3 A) := (a0 c * a0 v + a1 c * a1 v + a2 c * a2 v)%num in [dot (a0 m); dot (a1 m); dot (a2 m)].
Lemma rec709_ok : forall b, well_formed b -> ocolors b = 3 ->
  exists out, lab_to_rec709 b = Ok out /\ well_formed out /\ owidth out = owidth b /\ oheight out = oheight b /\ ocolors out = 3 /\
    forall y x, 0 <= y < oheight b -> 0 <= x < owidth b -> exists l c d, pixel b y x = [l; c; d] /\ pixel out y x = rec709 l c d.
Proof.
  intros b WF C3. assert (F : forall l c d, to_rec709 [l; c; d] = Ok (rec709 l c d)) by reflexivity.
  destruct (mutate_each_pixel to_rec709 b WF) as [out [E [W [O1 [O2 [O3 P]]]]]].
  { intros p Lp. rewrite C3 in Lp. destruct (three p Lp) as [l [c [d ->]]]. eexists. split; [apply F|]. rewrite C3. reflexivity. }
  exists out. rewrite C3 in E. split; [exact E|]. split; [exact W|]. do 2 (split; [assumption|]). split; [lia|]. intros y x Hy Hx. specialize (P y x Hy Hx).
  assert (Lp : zlen (pixel b y x) = 3) by (rewrite <- C3; pose proof WF as (_ & _ & Hc & _); apply run_len with (q := owidth b); auto).
  destruct (three _ Lp) as [l [c [d Ep]]]. exists l, c, d. split; [exact Ep|]. rewrite Ep, F in P. symmetry. apply (f_equal (fun r => match r with Ok v => v | _ => [] end)) in P. exact P.
Qed.
(** [labf] is total for single precision numbers and real numbers. *)
Hypothesis LABF : forall v : A, exists w, labf v = Ok w.
Lemma xyz_to_lab_ok : forall x y z : A, exists v, xyz_to_lab x y z = Ok v.
Proof.
  intros x y z. unfold xyz_to_lab, xyz_to_lab_with. fold (labf (A := A)). destruct (LABF (n_div y yw)) as [fy ->]. cbn [bind]. destruct (LABF (n_div x xw)) as [fx ->]. cbn [bind].
  destruct (LABF (n_div z zw)) as [fz ->]. cbn [bind]. eexists. reflexivity.
Qed.
Definition xyz_of (m : vec3 (vec4 A)) (r g b e : A) : vec3 A :=
  let dot (v : vec4 A) := (r * e0 v + g * e1 v + b * e2 v + e * e3 v)%num in V3 (dot (a0 m)) (dot (a1 m)) (dot (a2 m)).
Lemma lab_ok : forall img b, well_formed b -> ocolors b = 4 ->
  exists out, camera_to_lab img b = Ok out /\ well_formed out /\ owidth out = owidth b /\ oheight out = oheight b /\ ocolors out = 3 /\
    forall y x, 0 <= y < oheight b -> 0 <= x < owidth b -> exists r g u e lab, pixel b y x = [r; g; u; e] /\
      (let v := xyz_of (cam_to_xyz (i_xyz_to_cam img)) r g u e in xyz_to_lab (a0 v) (a1 v) (a2 v) = Ok lab) /\ pixel out y x = [a0 lab; a1 lab; a2 lab].
Proof.
  intros img b WF C4. pose proof WF as (Hw & Hh & Hc & L & B). unfold camera_to_lab. cbv zeta. set (m := cam_to_xyz (i_xyz_to_cam img)).
  set (w := owidth b) in *. set (h := oheight b) in *. change (owidth (op_new (n0 : A) w h 3)) with w. change (oheight (op_new (n0 : A) w h 3)) with h.
  set (g := fun y x => match to_lab m (pixel b y x) with Ok l => l | _ => [] end).
  assert (T : forall p, zlen p = 4 -> exists r g u e lab, p = [r; g; u; e] /\ (let v := xyz_of m r g u e in xyz_to_lab (a0 v) (a1 v) (a2 v) = Ok lab) /\ to_lab m p = Ok [a0 lab; a1 lab; a2 lab]).
  { intros p Lp. destruct (four p Lp) as [r [gr [u [e ->]]]]. destruct (xyz_to_lab_ok (a0 (xyz_of m r gr u e)) (a1 (xyz_of m r gr u e)) (a2 (xyz_of m r gr u e))) as [lab El].
    exists r, gr, u, e, lab. split; [reflexivity|]. split; [exact El|]. change (to_lab m [r; gr; u; e]) with (lab <- xyz_to_lab (a0 (xyz_of m r gr u e)) (a1 (xyz_of m r gr u e)) (a2 (xyz_of m r gr u e)) ;; Ok [a0 lab; a1 lab; a2 lab]).
    rewrite El. reflexivity. }
  assert (PL : forall y x, 0 <= y < h -> 0 <= x < w -> zlen (pixel b y x) = 4) by (intros y x Hy Hx; rewrite <- C4; apply run_len with (q := owidth b); auto).
  destruct (par_lines_ok (n0 : A) (w * 3) h (odata (op_new (n0 : A) w h 3)) (fun line row =>
         src <- slice_from (odata b) (w * ocolors b * row) ;;
         zip_chunks 3 4 line src (fun _ o i =>
           lab <- to_lab m i ;;
           l <- get lab 0 ;; o <- upd o 0 l ;; a <- get lab 1 ;; o <- upd o 1 a ;; b <- get lab 2 ;; upd o 2 b))
    (fun r i => at0 (g r (i / 3)) (i mod 3))) as [d [E [Ld V]]]; [lia|lia|unfold op_new; cbn [odata]; rewrite zlen_repeat; nia| |].
  - intros r l Hr Ll Nl. rewrite C4. assert (LZ : zlen (odata b) = w * 4 * h) by (unfold zlen; rewrite L, C4; ring).
    assert (R4 : w * 4 * r + w * 4 <= w * 4 * h) by nia. assert (R0 : 0 <= w * 4 * r) by nia.
    rewrite slice_from_ok by lia. cbn [bind].
    destruct (zip_ok (n0 : A) (n0 : A) 3 4 (fun _ o i => lab <- to_lab m i ;;
           l <- get lab 0 ;; o <- upd o 0 l ;; a <- get lab 1 ;; o <- upd o 1 a ;; b <- get lab 2 ;; upd o 2 b) (fun k j => at0 (g r k) j) ltac:(lia) ltac:(lia) w l (skipn (Z.to_nat (w * 4 * r)) (odata b))) as [l' [E' [L' N']]].
    + lia.
    + lia.
    + rewrite zlen_skipn. lia.
    + intros k o i Hk Lo Li _ Ni. assert (i = pixel b r k) as ->.
      { apply at0_ext with (z := (n0 : A)); [rewrite PL by lia; lia|]. intros j Hj. rewrite Ni by lia. unfold pixel. rewrite C4, run_at0 by (rewrite ?C4; fold w; nia || lia).
        rewrite at0_skipn by nia. fold w. rewrite C4. f_equal. ring. }
      destruct (T (pixel b r k) (PL r k Hr Hk)) as [r' [g' [u' [e' [lab [Ep [El Et]]]]]]]. unfold g. rewrite Et. cbn [bind]. destruct (three o Lo) as [x1 [x2 [x3 ->]]].
      eexists. split; [reflexivity|]. split; [reflexivity|]. reflexivity.
    + exists l'. split; [exact E'|]. split; [lia|]. intros i Hi. pose proof (Z.div_mod i 3 ltac:(lia)) as D. pose proof (Z.mod_pos_bound i 3 ltac:(lia)) as Bm.
      rewrite D at 1. rewrite (Z.mul_comm 3). apply N'; [|exact Bm]. split; [apply Z.div_pos; lia|]. apply Z.div_lt_upper_bound; lia.
  - rewrite E. cbn [bind]. eexists. split; [reflexivity|]. assert (B3 : w * h * 3 < 2 ^ 63) by (rewrite C4 in B; nia).
    assert (WO : well_formed (mkop w h 3 d)) by (apply well_formed_mk; [exact Hw|exact Hh|lia|lia|exact B3]). split; [exact WO|]. cbn [owidth oheight ocolors]. do 3 (split; [reflexivity|]).
    intros y x Hy Hx. destruct (T (pixel b y x) (PL y x Hy Hx)) as [r' [g' [u' [e' [lab [Ep [El Et]]]]]]]. exists r', g', u', e', lab. split; [exact Ep|]. split; [exact El|].
    assert (LO : zlen (pixel (mkop w h 3 d) y x) = 3) by (apply (run_len (mkop w h 3 d) 3 w); auto; lia).
    apply at0_ext with (z := (n0 : A)); [exact LO|]. intros j Hj. rewrite LO in Hj. unfold pixel. cbn [ocolors]. rewrite run_at0 by (cbn [owidth ocolors]; nia || lia). cbn [owidth ocolors odata].
    rewrite V by nia. rewrite Z.div_add_l by lia. rewrite (Z.div_small j 3) by lia. replace ((x * 3 + j) mod 3) with j by (rewrite Z.add_comm, Z.mod_add by lia; symmetry; apply Z.mod_small; lia).
    rewrite Z.add_0_r. unfold g. rewrite Et. reflexivity.
Qed.
Hypothesis GAMMA : forall v : A, exists w, gamma_value v = Ok w.
Lemma gamma_step_ok : forall b, well_formed b -> exists out, gamma b = Ok out /\ well_formed out /\ owidth out = owidth b /\ oheight out = oheight b /\ ocolors out = ocolors b /\
  forall i v, nth_error (odata b) i = Some v -> exists g, gamma_value v = Ok g /\ nth_error (odata out) i = Some g.
Proof.
  clear LABF. intros b WF. pose proof WF as (Hw & Hh & Hc & L & _). unfold gamma.
  assert (F : forall v w, gamma_value v = Ok w -> (v0 <- get [v] 0 ;; g <- gamma_value v0 ;; upd [v] 0 g) = Ok [w]) by (intros v w E; change (get [v] 0) with (Ok v); cbn [bind]; rewrite E; reflexivity).
  destruct (mutate_each 1 (owidth b * ocolors b) (fun pix => v <- get pix 0 ;; g <- gamma_value v ;; upd pix 0 g) b WF) as [out [E [W [O1 [O2 [O3 P]]]]]]; [lia|lia| |].
  { intros p Lp. destruct p as [|v [|? ?]]; try (unfold zlen in Lp; cbn in Lp; lia). destruct (GAMMA v) as [w Ew]. exists [w]. split; [apply F, Ew|reflexivity]. }
  exists out. split; [exact E|]. split; [exact W|]. do 3 (split; [assumption|]). intros i v Hi.
  assert (Li : (i < length (odata b))%nat) by (apply nth_error_Some; congruence).
  set (q := owidth b * ocolors b) in *. assert (0 < q) by (unfold q; nia).
  assert (HH : Z.of_nat (length (odata b)) = oheight b * q) by (rewrite L; unfold q; ring).
  pose proof (Z.div_mod (Z.of_nat i) q ltac:(lia)) as D. pose proof (Z.mod_pos_bound (Z.of_nat i) q ltac:(lia)) as Bm.
  assert (R : 0 <= Z.of_nat i / q < oheight b). { split; [apply Z.div_pos; lia|]. apply Z.div_lt_upper_bound; [lia|]. lia. }
  specialize (P _ _ R Bm). 
  assert (L1 : zlen (run b 1 (Z.of_nat i / q) (Z.of_nat i mod q)) = 1) by (apply run_len with (q := q); auto; unfold q; lia).
  assert (Ro : 0 <= Z.of_nat i / q < oheight out) by lia.
  assert (L2 : zlen (run out 1 (Z.of_nat i / q) (Z.of_nat i mod q)) = 1) by (apply run_len with (q := q); auto; try lia; rewrite O1, O3; unfold q; lia).
  assert (V1 : at0 (run b 1 (Z.of_nat i / q) (Z.of_nat i mod q)) 0 = at0 (odata b) (Z.of_nat i)) by (rewrite run_at0 by (fold q; nia || lia); fold q; f_equal; lia).
  assert (V2 : at0 (run out 1 (Z.of_nat i / q) (Z.of_nat i mod q)) 0 = at0 (odata out) (Z.of_nat i)) by (rewrite run_at0 by (rewrite ?O1, ?O3; fold q; nia || lia); rewrite O1, O3; fold q; f_equal; lia).
  destruct (run b 1 _ _) as [|v1 [|? ?]]; try (unfold zlen in L1; cbn in L1; lia). destruct (run out 1 _ _) as [|v2 [|? ?]]; try (unfold zlen in L2; cbn in L2; lia).
  unfold P_Orient.at0 in V1, V2. cbn [Z.to_nat nth] in V1, V2. rewrite Nat2Z.id in V1, V2. apply nth_error_nth with (d := n0) in Hi. rewrite Hi in V1. subst v1.
  destruct (GAMMA v) as [g Eg]. exists g. split; [exact Eg|]. rewrite (F v g Eg) in P. injection P as P. subst v2. rewrite V2.
  apply nth_error_nth'. pose proof W as (_ & _ & _ & LO & _). rewrite O1, O2, O3 in LO. lia.
Qed.
End S.
