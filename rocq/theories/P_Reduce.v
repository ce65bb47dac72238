(** Reduction: it always ends well, and where it leaves blanks. *)
From Coq Require Import String ZArith List Bool Reals Lia Lra ZifyBool ZifyNat.
From Flocq Require Import Core BinarySingleNaN.
From Verif Require Import Base Num F32 Threads Cfa Transform Image Gofloat Demosaic Spec_Orient P_Base P_Threads P_Orient P_F32 P_Zip P_Demosaic.
Import ListNotations.
Local Open Scope Z_scope.

Section R.
Context {M : Mode} {A : Type} {N : Num A}.
Hypothesis to_pos : forall x : A, 0 <= to_usize x.
Hypothesis to_min : forall m (x : A), 0 <= m < 2 ^ 23 -> to_usize (n_min (n_of m) x) <= m.

Definition two4 (st : list A * list A) : Prop := zlen (fst st) = 4 /\ zlen (snd st) = 4.
Lemma rfold_keeps : forall {X S} (P : S -> Prop) (f : X -> S -> res S) l, (forall x s, In x l -> P s -> exists s', f x s = Ok s' /\ P s') ->
  forall s, P s -> exists s', rfold f l s = Ok s' /\ P s'.
Proof.
  intros X S P f l. induction l as [|x l IH]; intros Hf s Hs; [exists s; split; [reflexivity|exact Hs]|].
  cbn [rfold]. destruct (Hf x s (or_introl eq_refl) Hs) as [s1 [E1 P1]]. rewrite E1. cbn [bind]. apply IH; [|exact P1]. intros y t Hy. apply Hf. right. exact Hy.
Qed.
Lemma skips : forall idx m skip, 0 <= m < 2 ^ 23 -> exists from to f t, calc_skips idx m skip = (from, to, f, t) /\ 0 <= from /\ to <= m /\
  from = to_usize (n_floor (n_mul (n_of idx) skip)).
Proof. intros idx m skip H. unfold calc_skips. do 4 eexists. split; [reflexivity|]. split; [apply to_pos|]. split; [apply to_min; exact H|reflexivity]. Qed.
(** One addition to the sums. *)
Lemma add_one : forall c (s n : list A) (v f : A), two4 (s, n) -> 0 <= c < 4 ->
  exists st, (a <- get s c ;; sums <- upd s c (n_add a (n_mul v f)) ;; b <- get n c ;; counts <- upd n c (n_add b f) ;; Ok (sums, counts)) = Ok st /\ two4 st.
Proof.
  intros c s n v f [L1 L2] Hc. cbn [fst snd] in *. rewrite (get_at0 n0) by lia. cbn [bind]. rewrite upd_ok by lia. cbn [bind]. rewrite (get_at0 n0) by lia. cbn [bind]. rewrite upd_ok by lia. cbn [bind].
  eexists. split; [reflexivity|]. split; cbn [fst snd]; rewrite zlen_upd_nat; assumption.
Qed.

Variable buf : opbuf A.
Hypothesis WF : well_formed buf.
Hypothesis SW : owidth buf < 2 ^ 23.
Hypothesis SH : oheight buf < 2 ^ 23.

(** A line, pixel by pixel, from any way to get sums. *)
Lemma reduce_line : forall (sums_of : Z -> res (list A * list A)) nwidth colors line, 0 < nwidth -> 0 < colors <= 4 -> zlen line = nwidth * colors ->
  (forall i, 0 <= i < zlen line -> at0 n0 line i = n0) ->
  (forall col, 0 <= col < nwidth -> exists st, sums_of col = Ok st /\ two4 st) ->
  exists l, rfold (fun col line => '(sums, counts) <- sums_of col ;; 
    rfold (fun c line => n <- get counts c ;; if n_lt n0 n then s <- get sums c ;; upd line (col * colors + c) (n_div s n) else Ok line) (zrange 0 colors) line)
    (zrange 0 nwidth) line = Ok l /\ zlen l = nwidth * colors /\
    forall x k, 0 <= x < nwidth -> 0 <= k < colors -> exists s n, sums_of x = Ok (s, n) /\
      at0 n0 l (x * colors + k) = if n_lt n0 (at0 n0 n k) then n_div (at0 n0 s k) (at0 n0 n k) else n0.
Proof.
  intros sums_of nwidth colors line Hn Hc L Z0 Hs.
  set (new x k := match sums_of x with Ok (s, n) => if n_lt n0 (at0 n0 n k) then Some (n_div (at0 n0 s k) (at0 n0 n k)) else None | _ => None end).
  destruct (update_pixels n0 (fun col line => '(sums, counts) <- sums_of col ;; 
    rfold (fun c line => n <- get counts c ;; if n_lt n0 n then s <- get sums c ;; upd line (col * colors + c) (n_div s n) else Ok line) (zrange 0 colors) line)
    (fun x k old => match new x k with Some v => v | None => old end) nwidth colors line) as [l [E [Ll Nl]]]; [lia|lia|exact L| |].
  - intros x l' Hx Ll'. destruct (Hs x Hx) as [[s n] [E [L1 L2]]]. cbn [fst snd] in L1, L2. rewrite E. cbn [bind].
    assert (B : x * colors + colors <= nwidth * colors) by (replace (x * colors + colors) with ((x + 1) * colors) by ring; apply Z.mul_le_mono_nonneg_r; lia).
    assert (B0 : 0 <= x * colors) by (apply Z.mul_nonneg_nonneg; lia).
    destruct (update_run n0 (fun c line => m <- get n c ;; if n_lt n0 m then t <- get s c ;; upd line (x * colors + c) (n_div t m) else Ok line) (new x) (x * colors) colors l') as [l2 [E2 [L2' N2]]]; [lia|lia|lia| |].
    + intros c l3 Hcc L3. rewrite (get_at0 n0) by lia. cbn [bind]. unfold new. rewrite E. destruct (n_lt n0 (at0 n0 n c)); [|reflexivity]. rewrite (get_at0 n0) by lia. reflexivity.
    + exists l2. split; [exact E2|]. split; [lia|]. intros j Hj. apply N2. lia.
  - exists l. split; [exact E|]. split; [exact Ll|]. intros x k Hx Hk. destruct (Hs x Hx) as [[s n] [Es _]]. exists s, n. split; [exact Es|]. rewrite Nl by assumption.
    assert (B : x * colors + colors <= nwidth * colors) by (replace (x * colors + colors) with ((x + 1) * colors) by ring; apply Z.mul_le_mono_nonneg_r; lia).
    assert (B0 : 0 <= x * colors) by (apply Z.mul_nonneg_nonneg; lia).
    rewrite Z0 by lia. unfold new. rewrite Es. destruct (n_lt n0 (at0 n0 n k)); reflexivity.
Qed.

(** *** Colour pictures *)
Definition down_sums (rowskip colskip : A) (row col : Z) : res (list A * list A) :=
  let '(fromrow, torow, top, bottom) := calc_skips row (oheight buf) rowskip in
  rfold (fun y st =>
    let '(fromcol, tocol, leftf, rightf) := calc_skips col (owidth buf) colskip in
    rfold (fun x st =>
      let factor := n_mul (edge y fromrow torow top bottom) (edge x fromcol tocol leftf rightf) in
      rfold (fun c '(sums, counts) =>
        s <- get sums c ;;
        v <- get (odata buf) ((y * owidth buf + x) * ocolors buf + c) ;;
        sums <- upd sums c (n_add s (n_mul v factor)) ;;
        n <- get counts c ;;
        counts <- upd counts c (n_add n factor) ;;
        Ok (sums, counts)) (zrange 0 (ocolors buf)) st) (zrange fromcol tocol) st)
  (zrange fromrow torow) (repeat n0 4, repeat n0 4).
Lemma start4 : two4 (repeat (n0 : A) 4, repeat (n0 : A) 4).
Proof. split; reflexivity. Qed.
Lemma down_sums_ok : forall rowskip colskip row col, ocolors buf <= 4 -> exists st, down_sums rowskip colskip row col = Ok st /\ two4 st.
Proof.
  intros rowskip colskip row col Hc. pose proof WF as (Hw & Hh & Hc0 & L & _). unfold down_sums.
  destruct (skips row (oheight buf) rowskip ltac:(lia)) as [fr [tr [f1 [f2 [-> [F1 [F2 _]]]]]]].
  apply (rfold_keeps two4); [|apply start4]. intros y st Hy Hst. apply zrange_In in Hy.
  destruct (skips col (owidth buf) colskip ltac:(lia)) as [fc [tc [f3 [f4 [-> [F3 [F4 _]]]]]]].
  apply (rfold_keeps two4); [|exact Hst]. intros x st2 Hx Hst2. apply zrange_In in Hx.
  apply (rfold_keeps two4); [|exact Hst2]. intros c [s n] Hcc Hst3. apply zrange_In in Hcc.
  pose proof (px_bound (owidth buf) (oheight buf) (ocolors buf) y x c Hw Hc0 ltac:(lia) ltac:(lia) Hcc) as PB.
  destruct (add_one c s n (at0 n0 (odata buf) ((y * owidth buf + x) * ocolors buf + c)) (n_mul (edge y fr tr f1 f2) (edge x fc tc f3 f4)) Hst3 ltac:(lia)) as [st' [E' P']].
  exists st'. split; [|exact P']. rewrite <- E'. destruct Hst3 as [L1 L2]. cbn [fst snd] in L1, L2. rewrite (get_at0 n0 s) by lia. cbn [bind]. rewrite (get_at0 n0 (odata buf)) by (unfold zlen; rewrite L; exact PB). reflexivity.
Qed.
Lemma scale_down_ok : forall nw nh, 0 < nw -> 0 < nh -> ocolors buf <= 4 -> nw * nh * ocolors buf < 2 ^ 63 ->
  exists out, scale_down buf nw nh = Ok out /\ well_formed out /\ owidth out = nw /\ oheight out = nh /\ ocolors out = ocolors buf /\
    forall y x k, 0 <= y < nh -> 0 <= x < nw -> 0 <= k < ocolors buf -> exists s n,
      down_sums (n_div (n_of (owidth buf)) (n_of nw)) (n_div (n_of (oheight buf)) (n_of nh)) y x = Ok (s, n) /\
      sample_at out y x k = Some (if n_lt n0 (at0 n0 n k) then n_div (at0 n0 s k) (at0 n0 n k) else n0).
Proof.
  intros nw nh Hnw Hnh Hc Hm. pose proof WF as (Hw & Hh & Hc0 & L & _). unfold scale_down.
  set (rs := n_div (n_of (owidth buf)) (n_of nw)). set (cs := n_div (n_of (oheight buf)) (n_of nh)). set (cc := ocolors buf) in *.
  assert (Lw : zlen (odata (op_new (n0 : A) nw nh cc)) = nw * cc * nh) by (unfold op_new; cbn [odata]; rewrite zlen_repeat; nia).
  set (pixel := fun r i => match down_sums rs cs r (i / cc) with Ok (s, n) => if n_lt n0 (at0 n0 n (i mod cc)) then n_div (at0 n0 s (i mod cc)) (at0 n0 n (i mod cc)) else n0 | _ => n0 end).
  destruct (par_lines_ok (n0 : A) (nw * cc) nh (odata (op_new n0 nw nh cc)) (scale_line buf nw rs cs) pixel) as [d [E [Ld Nd]]]; [nia|lia|exact Lw| |].
  { intros r l Hr Ll Nl.
    assert (Z0 : forall i, 0 <= i < zlen l -> at0 n0 l i = n0) by (intros i Hi; rewrite Nl by lia; unfold op_new; cbn [odata]; unfold at0; apply nth_repeat).
    destruct (reduce_line (down_sums rs cs r) nw cc l Hnw ltac:(lia) Ll Z0 (fun col _ => down_sums_ok rs cs r col Hc)) as [l' [El [Ll' Nl']]].
    exists l'. split.
    - rewrite <- El. unfold scale_line, down_sums. destruct (calc_skips r (oheight buf) rs) as [[[fr tr] f1] f2]. reflexivity.
    - split; [exact Ll'|]. intros i Hi. pose proof (Z.div_mod i cc ltac:(lia)) as D. pose proof (Z.mod_pos_bound i cc ltac:(lia)) as B.
      assert (Q : 0 <= i / cc < nw) by (split; [apply Z.div_pos; lia|apply Z.div_lt_upper_bound; lia]).
      destruct (Nl' (i / cc) (i mod cc) Q B) as [s [n [Es Ns]]]. rewrite (Z.mul_comm cc) in D. rewrite <- D in Ns. rewrite Ns. unfold pixel. rewrite Es. reflexivity. }
  rewrite E. cbn [bind]. eexists. split; [reflexivity|].
  assert (WF2 : well_formed (mkop nw nh cc d)) by (apply well_formed_mk; [exact Hnw|exact Hnh|lia|lia|exact Hm]).
  split; [exact WF2|]. cbn [ocolors owidth oheight]. split; [reflexivity|]. split; [reflexivity|]. split; [reflexivity|].
  intros y x k Hy Hx Hk. destruct (down_sums_ok rs cs y x Hc) as [[s n] [Es _]]. exists s, n. split; [exact Es|].
  rewrite (sample_px n0) by (cbn [ocolors owidth oheight]; (exact WF2 || lia)). unfold px. cbn [odata owidth ocolors]. f_equal.
  replace ((y * nw + x) * cc + k) with (y * (nw * cc) + (x * cc + k)) by ring.
  assert (B : x * cc + cc <= nw * cc) by (replace (x * cc + cc) with ((x + 1) * cc) by ring; apply Z.mul_le_mono_nonneg_r; lia).
  assert (B0 : 0 <= x * cc) by (apply Z.mul_nonneg_nonneg; lia). rewrite Nd by lia. unfold pixel.
  replace ((x * cc + k) / cc) with x by (symmetry; rewrite Z.div_add_l by lia; rewrite Z.div_small by lia; lia).
  replace ((x * cc + k) mod cc) with k by (symmetry; rewrite Z.add_comm, Z.mod_add by lia; apply Z.mod_small; lia). rewrite Es. reflexivity.
Qed.

(** *** Sensor data *)
Variable cfa : CFA.
Definition sensor_sums (rowskip colskip : A) (row col : Z) : res (list A * list A) :=
  let '(fromrow, torow, top, bottom) := calc_skips row (oheight buf) rowskip in
  rfold (fun y st =>
    let '(fromcol, tocol, leftf, rightf) := calc_skips col (owidth buf) colskip in
    rfold (fun x '(sums, counts) =>
      let factor := n_mul (edge y fromrow torow top bottom) (edge x fromcol tocol leftf rightf) in
      c <- color_at cfa y x ;;
      s <- get sums c ;;
      v <- get (odata buf) (y * owidth buf + x) ;;
      sums <- upd sums c (n_add s (n_mul v factor)) ;;
      n <- get counts c ;;
      counts <- upd counts c (n_add n factor) ;;
      Ok (sums, counts)) (zrange fromcol tocol) st)
  (zrange fromrow torow) (repeat n0 4, repeat n0 4).
Hypothesis Hcol : forall y x, 0 <= y < oheight buf -> 0 <= x < owidth buf -> exists c, color_at cfa y x = Ok c /\ 0 <= c < 4.
Hypothesis C1 : ocolors buf = 1.
Lemma sensor_sums_ok : forall rowskip colskip row col, exists st, sensor_sums rowskip colskip row col = Ok st /\ two4 st.
Proof.
  intros rowskip colskip row col. pose proof WF as (Hw & Hh & Hc0 & L & _). unfold sensor_sums.
  destruct (skips row (oheight buf) rowskip ltac:(lia)) as [fr [tr [f1 [f2 [-> [F1 [F2 _]]]]]]].
  apply (rfold_keeps two4); [|apply start4]. intros y st Hy Hst. apply zrange_In in Hy.
  destruct (skips col (owidth buf) colskip ltac:(lia)) as [fc [tc [f3 [f4 [-> [F3 [F4 _]]]]]]].
  apply (rfold_keeps two4); [|exact Hst]. intros x [s n] Hx Hst2. apply zrange_In in Hx.
  destruct (Hcol y x ltac:(lia) ltac:(lia)) as [c [Ec Rc]].
  pose proof (px_bound (owidth buf) (oheight buf) 1 y x 0 Hw ltac:(lia) ltac:(lia) ltac:(lia) ltac:(lia)) as PB.
  destruct (add_one c s n (at0 n0 (odata buf) (y * owidth buf + x)) (n_mul (edge y fr tr f1 f2) (edge x fc tc f3 f4)) Hst2 ltac:(lia)) as [st' [E' P']].
  exists st'. split; [|exact P']. rewrite <- E'. rewrite Ec. cbn [bind]. destruct Hst2 as [L1 L2]. cbn [fst snd] in L1, L2. rewrite (get_at0 n0 s) by lia. cbn [bind]. rewrite (get_at0 n0 (odata buf)) by (unfold zlen; rewrite L, C1; lia). reflexivity.
Qed.
Lemma scaled_ok : forall img nw nh, img_cropped_cfa img = Ok cfa -> 0 < nw -> 0 < nh -> nw * nh * 4 < 2 ^ 63 ->
  exists out, scaled img buf nw nh = Ok out /\ well_formed out /\ owidth out = nw /\ oheight out = nh /\ ocolors out = 4 /\
    forall y x k, 0 <= y < nh -> 0 <= x < nw -> 0 <= k < 4 -> exists s n,
      sensor_sums (n_div (n_of (owidth buf)) (n_of nw)) (n_div (n_of (oheight buf)) (n_of nh)) y x = Ok (s, n) /\
      sample_at out y x k = Some (if n_lt n0 (at0 n0 n k) then n_div (at0 n0 s k) (at0 n0 n k) else n0).
Proof.
  intros img nw nh Ecfa Hnw Hnh Hm. pose proof WF as (Hw & Hh & Hc0 & L & _). unfold scaled. rewrite Ecfa. cbn [bind].
  set (rs := n_div (n_of (owidth buf)) (n_of nw)). set (cs := n_div (n_of (oheight buf)) (n_of nh)).
  assert (Lw : zlen (odata (op_new (n0 : A) nw nh 4)) = nw * 4 * nh) by (unfold op_new; cbn [odata]; rewrite zlen_repeat; nia).
  set (pixel := fun r i => match sensor_sums rs cs r (i / 4) with Ok (s, n) => if n_lt n0 (at0 n0 n (i mod 4)) then n_div (at0 n0 s (i mod 4)) (at0 n0 n (i mod 4)) else n0 | _ => n0 end).
  destruct (par_lines_ok (n0 : A) (nw * 4) nh (odata (op_new n0 nw nh 4)) (scaled_line cfa buf nw rs cs) pixel) as [d [E [Ld Nd]]]; [lia|lia|exact Lw| |].
  { intros r l Hr Ll Nl.
    assert (Z0 : forall i, 0 <= i < zlen l -> at0 n0 l i = n0) by (intros i Hi; rewrite Nl by lia; unfold op_new; cbn [odata]; unfold at0; apply nth_repeat).
    destruct (reduce_line (sensor_sums rs cs r) nw 4 l Hnw ltac:(lia) Ll Z0 (fun col _ => sensor_sums_ok rs cs r col)) as [l' [El [Ll' Nl']]].
    exists l'. split.
    - rewrite <- El. unfold scaled_line, sensor_sums. destruct (calc_skips r (oheight buf) rs) as [[[fr tr] f1] f2]. reflexivity.
    - split; [exact Ll'|]. intros i Hi. pose proof (Z.div_mod i 4 ltac:(lia)) as D. pose proof (Z.mod_pos_bound i 4 ltac:(lia)) as B.
      assert (Q : 0 <= i / 4 < nw) by (split; [apply Z.div_pos; lia|apply Z.div_lt_upper_bound; lia]).
      destruct (Nl' (i / 4) (i mod 4) Q B) as [s [n [Es Ns]]]. rewrite (Z.mul_comm 4) in D. rewrite <- D in Ns. rewrite Ns. unfold pixel. rewrite Es. reflexivity. }
  rewrite E. cbn [bind]. eexists. split; [reflexivity|].
  assert (WF2 : well_formed (mkop nw nh 4 d)) by (apply well_formed_mk; [exact Hnw|exact Hnh|lia|lia|exact Hm]).
  split; [exact WF2|]. cbn [ocolors owidth oheight]. split; [reflexivity|]. split; [reflexivity|]. split; [reflexivity|].
  intros y x k Hy Hx Hk. destruct (sensor_sums_ok rs cs y x) as [[s n] [Es _]]. exists s, n. split; [exact Es|].
  rewrite (sample_px n0) by (cbn [ocolors owidth oheight]; (exact WF2 || lia)). unfold px. cbn [odata owidth ocolors]. f_equal.
  replace ((y * nw + x) * 4 + k) with (y * (nw * 4) + (x * 4 + k)) by ring. rewrite Nd by lia. unfold pixel.
  replace ((x * 4 + k) / 4) with x by (symmetry; rewrite Z.div_add_l by lia; rewrite Z.div_small by lia; lia).
  replace ((x * 4 + k) mod 4) with k by (symmetry; rewrite Z.add_comm, Z.mod_add by lia; apply Z.mod_small; lia). rewrite Es. reflexivity.
Qed.
(** A column that begins past the last one stays blank. *)
Lemma blank_column : forall rowskip colskip row col, owidth buf <= to_usize (n_floor (n_mul (n_of col) colskip)) ->
  sensor_sums rowskip colskip row col = Ok (repeat n0 4, repeat n0 4).
Proof.
  intros rowskip colskip row col H. pose proof WF as (Hw & Hh & _). unfold sensor_sums.
  destruct (calc_skips row (oheight buf) rowskip) as [[[fr tr] f1] f2].
  destruct (skips col (owidth buf) colskip ltac:(lia)) as [fc [tc [f3 [f4 [-> [F3 [F4 F5]]]]]]].
  rewrite (zrange_empty fc tc) by lia. induction (zrange fr tr) as [|y l IH]; [reflexivity|]. cbn [rfold bind]. exact IH.
Qed.
Lemma blank_row : forall rowskip colskip row col, oheight buf <= to_usize (n_floor (n_mul (n_of row) rowskip)) ->
  sensor_sums rowskip colskip row col = Ok (repeat n0 4, repeat n0 4).
Proof.
  intros rowskip colskip row col H. pose proof WF as (Hw & Hh & _). unfold sensor_sums.
  destruct (skips row (oheight buf) rowskip ltac:(lia)) as [fr [tr [f1 [f2 [-> [F1 [F2 F3]]]]]]]. rewrite (zrange_empty fr tr) by lia. reflexivity.
Qed.
End R.

Lemma f32_to_pos : forall cbrt pow (x : f32), 0 <= to_usize (N := f32_num cbrt pow) x.
Proof. intros. unfold to_usize. cbn [n_to f32_num]. apply (to_range 0 (2 ^ 64 - 1) x); cbn; lia. Qed.
Lemma f32_to_min : forall cbrt pow m (x : f32), 0 <= m < 2 ^ 23 -> let N := f32_num cbrt pow in to_usize (n_min (n_of m) x) <= m.
Proof.
  intros cbrt pow m x Hm N. unfold N, to_usize. cbn [n_to n_min n_of f32_num]. destruct (of_exact m) as [F [V _]]; [change (2 ^ 24) with 16777216; change (2 ^ 23) with 8388608 in Hm; lia|].
  assert (K : f32_to 0 (2 ^ 64 - 1) (f32_of m) <= m).
  { rewrite to_val; [rewrite V, Ztrunc_IZR; lia|exact F|]. rewrite V, Ztrunc_IZR. change (2 ^ 64) with 18446744073709551616. change (2 ^ 23) with 8388608 in Hm. lia. }
  unfold f32_min. destruct (is_nan (f32_of m)) eqn:Nm; [destruct (f32_of m); discriminate|]. destruct (is_nan x) eqn:Nx; [exact K|]. destruct (Bltb x (f32_of m)) eqn:L; [|exact K].
  destruct x as [s|[|]| |s mm e B]; try discriminate; try (cbn; lia).
  - destruct (f32_of m) as [|[]| |]; discriminate.
  - apply (lt_fin (B754_finite s mm e B) (f32_of m) eq_refl F) in L. rewrite V in L. unfold f32_to. rewrite trunc_val.
    assert (Ztrunc (B2R (B754_finite s mm e B)) <= m). { apply Z.le_trans with (Ztrunc (IZR m)); [apply Ztrunc_le; lra|rewrite Ztrunc_IZR; lia]. }
    lia.
Qed.
