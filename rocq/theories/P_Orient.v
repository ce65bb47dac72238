(** Proofs about pixel buffers and orientation. *)
From Coq Require Import ZArith List Bool Lia ZifyBool ZifyNat.
From Verif Require Import Base Threads Transform Spec_Orient P_Base P_Threads.
Import ListNotations.
Local Open Scope Z_scope.
Ltac Zify.zify_post_hook ::= Z.div_mod_to_equations.

Section Poly.
Context {A : Type} (z : A).
Definition at0 (l : list A) (i : Z) : A := nth (Z.to_nat i) l z.

Lemma get_at0 : forall l i, 0 <= i < zlen l -> get l i = Ok (at0 l i).
Proof.
  intros l i H. unfold get. replace ((0 <=? i) && (i <? zlen l)) with true by lia.
  unfold at0. unfold zlen in H.
  rewrite (nth_error_nth' l z) by lia. reflexivity.
Qed.
Lemma at0_upd_nat : forall l i j v, 0 <= i < zlen l -> 0 <= j ->
  at0 (upd_nat l (Z.to_nat i) v) j = if j =? i then v else at0 l j.
Proof.
  intros l i j v Hi Hj. unfold at0. unfold zlen in Hi. destruct (Z.eqb_spec j i) as [->|Hn].
  - apply upd_nat_nth_same. lia.
  - apply upd_nat_nth_other. lia.
Qed.
Lemma at0_nth_error : forall l i, 0 <= i < zlen l -> nth_error l (Z.to_nat i) = Some (at0 l i).
Proof. intros l i H. unfold at0, zlen in *. apply nth_error_nth'. lia. Qed.
Lemma at0_ext : forall a b, zlen a = zlen b -> (forall i, 0 <= i < zlen a -> at0 a i = at0 b i) -> a = b.
Proof.
  intros a b L H. unfold zlen, at0 in *. apply nth_ext with (d := z) (d' := z); [lia|].
  intros n Hn. specialize (H (Z.of_nat n)). rewrite Nat2Z.id in H. apply H. lia.
Qed.

(** Consecutive stores. *)
Lemma fill_run : forall (body : Z -> list A -> res (list A)) (v : Z -> A) base n l,
  0 <= n -> 0 <= base -> base + n <= zlen l ->
  (forall c l', 0 <= c < n -> zlen l' = zlen l -> body c l' = upd l' (base + c) (v c)) ->
  exists l', rfold body (zrange 0 n) l = Ok l' /\ zlen l' = zlen l /\
    forall j, 0 <= j < zlen l -> at0 l' j = if (base <=? j) && (j <? base + n) then v (j - base) else at0 l j.
Proof.
  intros body v base n l Hn Hb Hl Hbody. revert n Hn Hl Hbody.
  refine (natlike_ind _ _ _).
  - intros _ _. exists l. rewrite zrange_empty by lia. split; [reflexivity|]. split; [reflexivity|].
    intros j Hj. replace ((base <=? j) && (j <? base + 0)) with false by lia. reflexivity.
  - intros n Hn IH Hl Hbody. unfold Z.succ in *.
    destruct IH as [l1 [E1 [L1 N1]]]; [lia|intros; apply Hbody; lia|].
    rewrite zrange_snoc by lia. rewrite rfold_app, E1. cbn [bind rfold].
    rewrite Hbody by lia. rewrite upd_ok by lia. cbn [bind].
    eexists. split; [reflexivity|]. split; [rewrite zlen_upd_nat; assumption|].
    intros j Hj. rewrite at0_upd_nat by lia. rewrite N1 by lia.
    destruct (Z.eqb_spec j (base + n)) as [->|Hne].
    + replace ((base <=? base + n) && (base + n <? base + (n + 1))) with true by lia. f_equal. lia.
    + replace (j <? base + (n + 1)) with (j <? base + n) by lia. reflexivity.
Qed.

(** A line written pixel by pixel, each pixel being [n] consecutive samples. *)
Lemma fill_pixels : forall (body : Z -> list A -> res (list A)) (v : Z -> Z -> A) w n l,
  0 <= w -> 0 < n -> zlen l = w * n ->
  (forall x l', 0 <= x < w -> zlen l' = w * n ->
     exists l2, body x l' = Ok l2 /\ zlen l2 = w * n /\
       forall j, 0 <= j < w * n -> at0 l2 j = if (x * n <=? j) && (j <? x * n + n) then v x (j - x * n) else at0 l' j) ->
  exists l', rfold body (zrange 0 w) l = Ok l' /\ zlen l' = w * n /\
    forall x k, 0 <= x < w -> 0 <= k < n -> at0 l' (x * n + k) = v x k.
Proof.
  intros body v w n l Hw Hn Hl Hbody.
  assert (G : forall m, 0 <= m <= w -> exists l', rfold body (zrange 0 m) l = Ok l' /\ zlen l' = w * n /\
    forall x k, 0 <= x < m -> 0 <= k < n -> at0 l' (x * n + k) = v x k).
  { intros m Hm. destruct Hm as [Hm Hm2]. revert m Hm Hm2. refine (natlike_ind _ _ _).
    - intros _. exists l. rewrite zrange_empty by lia. split; [reflexivity|]. split; [assumption|]. intros; lia.
    - intros m Hm IH Hm2. unfold Z.succ in *. destruct IH as [l1 [E1 [L1 N1]]]; [lia|].
      destruct (Hbody m l1) as [l2 [E2 [L2 N2]]]; [lia|assumption|].
      exists l2. rewrite zrange_snoc by lia. rewrite rfold_app, E1. cbn [bind rfold]. rewrite E2. cbn [bind].
      split; [reflexivity|]. split; [assumption|]. intros x k Hx Hk.
      assert (B : 0 <= x * n + k < w * n) by nia.
      rewrite N2 by assumption. destruct (Z.eq_dec x m) as [->|Hne].
      + replace ((m * n <=? m * n + k) && (m * n + k <? m * n + n)) with true by lia. f_equal. lia.
      + assert (x * n + k < m * n) by nia. replace (m * n <=? x * n + k) with false by lia. cbn [andb].
        apply N1; lia. }
  apply G. lia.
Qed.

(** All the lines of a buffer. *)
Lemma par_lines_ok : forall n h data (closure : list A -> Z -> res (list A)) (pix : Z -> Z -> A),
  0 < n -> 0 <= h -> zlen data = n * h ->
  (forall r l, 0 <= r < h -> zlen l = n -> (forall i, 0 <= i < n -> at0 l i = at0 data (r * n + i)) ->
     exists l', closure l r = Ok l' /\ zlen l' = n /\ forall i, 0 <= i < n -> at0 l' i = pix r i) ->
  exists d, par_lines n data closure = Ok d /\ zlen d = n * h /\
    forall r i, 0 <= r < h -> 0 <= i < n -> at0 d (r * n + i) = pix r i.
Proof.
  intros n h data closure pix Hn Hh L H. unfold par_lines. replace (n =? 0) with false by lia.
  unfold enumerate.
  assert (G : forall m, 0 <= m -> forall k dat, 0 <= k -> k + m <= h -> zlen dat = n * m ->
    (forall j, 0 <= j < n * m -> at0 dat j = at0 data (k * n + j)) ->
    zlen (chunks (Z.to_nat n) dat) = m /\
    exists ls, mapM (fun '(row, line) => closure line row) (combine (zrange k (k + m)) (chunks (Z.to_nat n) dat)) = Ok ls /\
      zlen (concat ls) = n * m /\
      forall r i, 0 <= r < m -> 0 <= i < n -> at0 (concat ls) (r * n + i) = pix (k + r) i).
  { refine (natlike_ind _ _ _).
    - intros k dat Hk Hkm Ld _. assert (dat = []) as -> by (destruct dat; [reflexivity|rewrite zlen_cons in Ld; pose proof (zlen_nonneg dat); lia]).
      split; [reflexivity|]. exists []. rewrite zrange_empty by lia. split; [reflexivity|]. split; [unfold zlen; cbn; lia|]. intros; lia.
    - intros m Hm IH k dat Hk Hkm Ld Hd. unfold Z.succ in *.
      assert (Ln : n * 1 <= n * (m + 1)) by (apply Z.mul_le_mono_nonneg_l; lia).
      rewrite chunks_cons; [|lia|].
      2:{ intros ->. change (zlen (@nil A)) with 0 in Ld. lia. }
      destruct (IH (k + 1) (skipn (Z.to_nat n) dat)) as [Lc [ls [Els [Ll Nl]]]].
      { lia. } { lia. } { rewrite zlen_skipn. lia. }
      { intros j Hj. unfold at0 at 1. rewrite nth_skipn'. specialize (Hd (n + j)).
        unfold at0 at 1 in Hd. replace (Z.to_nat (n + j)) with (Z.to_nat n + Z.to_nat j)%nat in Hd by lia.
        rewrite Hd by lia. f_equal. lia. }
      split; [rewrite zlen_cons; lia|].
      rewrite zrange_cons by lia. cbn [combine mapM].
      destruct (H k (firstn (Z.to_nat n) dat)) as [l' [E' [L' N']]].
      { lia. } { rewrite zlen_firstn. lia. }
      { intros i Hi. unfold at0 at 1. rewrite nth_firstn' by lia. apply Hd. lia. }
      rewrite E'. cbn [bind]. replace (k + (m + 1)) with (k + 1 + m) by lia. rewrite Els. cbn [bind].
      exists (l' :: ls). split; [reflexivity|]. cbn [concat]. split; [rewrite zlen_app; lia|].
      intros r i Hr Hi. unfold at0. unfold zlen in L'. destruct (Z.eq_dec r 0) as [->|Hne].
      + rewrite app_nth1 by lia. rewrite Z.mul_0_l, Z.add_0_l, Z.add_0_r. apply N'. lia.
      + assert (0 <= (r - 1) * n) by (apply Z.mul_nonneg_nonneg; lia).
        rewrite app_nth2 by lia. specialize (Nl (r - 1) i ltac:(lia) Hi). unfold at0 in Nl.
        replace (k + r) with (k + 1 + (r - 1)) by lia. rewrite <- Nl. f_equal. lia. }
  destruct (G h Hh 0 data) as [Lc [ls [E [Ll Nl]]]]; try lia; [intros; f_equal; lia|].
  rewrite Lc. rewrite Z.add_0_l in E. rewrite E. cbn [bind]. exists (concat ls).
  split; [reflexivity|]. split; [assumption|]. intros r i Hr Hi. rewrite Nl by assumption. f_equal. 
Qed.

(** Pixels *)
Definition px (b : opbuf A) (y x k : Z) : A := at0 (odata b) ((y * owidth b + x) * ocolors b + k).
Lemma px_bound : forall w h c y x k, 0 < w -> 0 < c -> 0 <= y < h -> 0 <= x < w -> 0 <= k < c ->
  0 <= (y * w + x) * c + k < w * h * c.
Proof.
  intros w h c y x k Hw Hc Hy Hx Hk.
  assert (0 <= y * w + x < w * h) by nia. nia.
Qed.
Lemma px_split : forall w h c j, 0 < w -> 0 < c -> 0 <= j < w * h * c ->
  exists y x k, 0 <= y < h /\ 0 <= x < w /\ 0 <= k < c /\ j = (y * w + x) * c + k.
Proof.
  intros w h c j Hw Hc Hj. exists (j / c / w), (j / c mod w), (j mod c).
  pose proof (Z.div_mod j c ltac:(lia)). pose proof (Z.div_mod (j / c) w ltac:(lia)).
  pose proof (Z.mod_pos_bound j c Hc). pose proof (Z.mod_pos_bound (j / c) w Hw).
  assert (0 <= j / c < w * h).
  { split; [apply Z.div_pos; lia|]. apply Z.div_lt_upper_bound; lia. }
  assert (0 <= j / c / w < h).
  { split; [apply Z.div_pos; lia|]. apply Z.div_lt_upper_bound; lia. }
  repeat split; try lia.
Qed.
Lemma sample_px : forall b y x k, well_formed b -> 0 <= y < oheight b -> 0 <= x < owidth b -> 0 <= k < ocolors b ->
  sample_at b y x k = Some (px b y x k).
Proof.
  intros b y x k (Hw & Hh & Hc & L & _) Hy Hx Hk. unfold sample_at, px. apply at0_nth_error. unfold zlen.
  rewrite L. apply px_bound; lia.
Qed.
Lemma buf_ext : forall a b, well_formed a -> well_formed b -> owidth a = owidth b -> oheight a = oheight b ->
  ocolors a = ocolors b ->
  (forall y x k, 0 <= y < oheight a -> 0 <= x < owidth a -> 0 <= k < ocolors a -> px a y x k = px b y x k) -> a = b.
Proof.
  intros [w h c d] [w' h' c' d'] (Hw & Hh & Hc & L & _) (_ & _ & _ & L' & _). cbn [owidth oheight ocolors odata] in *.
  intros -> -> -> H. f_equal. apply at0_ext; [unfold zlen; lia|]. intros i Hi. unfold zlen in Hi. rewrite L in Hi.
  destruct (px_split w' h' c' i) as [y [x [k [Hy [Hx [Hk ->]]]]]]; try lia.
  specialize (H y x k Hy Hx Hk). unfold px in H. cbn [owidth ocolors odata] in H. assumption.
Qed.
Lemma well_formed_mk : forall w h c (d : list A), 0 < w -> 0 < h -> 0 < c -> zlen d = w * c * h -> w * h * c < 2 ^ 63 ->
  well_formed (mkop w h c d).
Proof. intros w h c d Hw Hh Hc L B. unfold well_formed. cbn. unfold zlen in L. repeat split; try assumption. lia. Qed.

Context {M : Mode}.
Lemma flip_horizontal_ok : forall b, well_formed b ->
  exists o, flip_horizontal z b = Ok o /\ well_formed o /\ owidth o = owidth b /\ oheight o = oheight b /\ ocolors o = ocolors b /\
    forall y x k, 0 <= y < oheight b -> 0 <= x < owidth b -> 0 <= k < ocolors b -> px o y x k = px b y (owidth b - 1 - x) k.
Proof.
  intros b Wf. pose proof Wf as (Hw & Hh & Hc & L & B). unfold flip_horizontal. cbn [op_new owidth oheight ocolors odata].
  destruct b as [w h c d]. cbn [owidth oheight ocolors odata] in *.
  assert (Pwc : 0 < w * c) by nia. assert (Wb : w < 2 ^ 63).
  { assert (w * 1 <= w * (h * c)) by (apply Z.mul_le_mono_nonneg_l; nia). lia. }
  match goal with |- context [par_lines _ _ ?f] => set (clo := f) end.
  destruct (par_lines_ok (w * c) h (repeat z (Z.to_nat (w * h * c))) clo
     (fun r i => at0 d ((r * w + (w - 1 - i / c)) * c + i mod c))) as [o [E [Lo No]]].
  - lia.
  - lia.
  - rewrite zlen_repeat. nia.
  - intros r l Hr Ll _. unfold clo. cbv zeta.
    destruct (fill_pixels (fun col line =>
      rfold (fun k line =>
        w1 <- usub w 1 ;; src <- usub w1 col ;;
        v <- get d (w * r * c + src * c + k) ;;
        upd line (col * c + k) v) (zrange 0 c) line) (fun x k => at0 d ((r * w + (w - 1 - x)) * c + k)) w c l)
      as [l' [E [L' N]]]; try lia.
    + intros x l' Hx Ll'.
      assert (Bx : x * c + c <= w * c) by nia.
      destruct (fill_run (fun k line => w1 <- usub w 1 ;; src <- usub w1 x ;;
        v <- get d (w * r * c + src * c + k) ;; upd line (x * c + k) v)
        (fun k => at0 d ((r * w + (w - 1 - x)) * c + k)) (x * c) c l') as [l2 [E2 [L2 N2]]]; try nia.
      * intros k l2 Hk Ll2. rewrite usub_ok by p2lia. cbn [bind]. rewrite usub_ok by p2lia. cbn [bind].
        replace (w * r * c + (w - 1 - x) * c + k) with ((r * w + (w - 1 - x)) * c + k) by ring.
        rewrite get_at0. { reflexivity. } unfold zlen. rewrite L. apply px_bound; lia.
      * exists l2. split; [assumption|]. split; [lia|]. intros j Hj. apply N2. lia.
    + exists l'. split; [assumption|]. split; [assumption|]. intros i Hi.
      pose proof (Z.div_mod i c ltac:(lia)). pose proof (Z.mod_pos_bound i c Hc).
      replace i with (i / c * c + i mod c) at 1 by lia. apply N; [|assumption].
      split; [apply Z.div_pos; lia|apply Z.div_lt_upper_bound; lia].
  - rewrite E. cbn [bind]. eexists. split; [reflexivity|]. cbn [owidth oheight ocolors odata].
    split; [apply well_formed_mk; try lia|]. do 3 (split; [reflexivity|]).
    intros y x k Hy Hx Hk. unfold px. cbn [owidth ocolors odata].
    replace ((y * w + x) * c + k) with (y * (w * c) + (x * c + k)) by ring. rewrite No by nia.
    rewrite Z.div_add_l, Z.div_small, Z.add_0_r by lia. f_equal. f_equal.
    rewrite Z.add_comm, Z.mod_add by lia. apply Z.mod_small; lia.
Qed.
Lemma flip_vertical_ok : forall b, well_formed b ->
  exists o, flip_vertical z b = Ok o /\ well_formed o /\ owidth o = owidth b /\ oheight o = oheight b /\ ocolors o = ocolors b /\
    forall y x k, 0 <= y < oheight b -> 0 <= x < owidth b -> 0 <= k < ocolors b -> px o y x k = px b (oheight b - 1 - y) x k.
Proof.
  intros b Wf. pose proof Wf as (Hw & Hh & Hc & L & B). unfold flip_vertical. cbn [op_new owidth oheight ocolors odata].
  destruct b as [w h c d]. cbn [owidth oheight ocolors odata] in *.
  assert (Pwc : 0 < w * c) by nia. assert (Hb : h < 2 ^ 63).
  { assert (h * 1 <= h * (w * c)) by (apply Z.mul_le_mono_nonneg_l; nia). lia. }
  match goal with |- context [par_lines _ _ ?f] => set (clo := f) end.
  destruct (par_lines_ok (w * c) h (repeat z (Z.to_nat (w * h * c))) clo
     (fun r i => at0 d ((h - 1 - r) * w * c + i))) as [o [E [Lo No]]].
  - lia.
  - lia.
  - rewrite zlen_repeat. nia.
  - intros r l Hr Ll _. unfold clo. rewrite usub_ok by p2lia. cbn [bind]. rewrite usub_ok by p2lia. cbn [bind]. cbv zeta.
    destruct (fill_run (fun col line => v <- get d ((h - 1 - r) * w * c + col) ;; upd line col v)
      (fun i => at0 d ((h - 1 - r) * w * c + i)) 0 (w * c) l) as [l' [E [L' N]]]; try lia.
    + intros i l' Hi Ll'. rewrite get_at0; [reflexivity|]. unfold zlen. rewrite L.
      assert (0 <= (h - 1 - r) * (w * c) <= (h - 1) * (w * c)) by nia. lia.
    + exists l'. split; [assumption|]. split; [lia|]. intros i Hi. rewrite N by lia.
      replace ((0 <=? i) && (i <? 0 + w * c)) with true by lia. f_equal. lia.
  - rewrite E. cbn [bind]. eexists. split; [reflexivity|]. cbn [owidth oheight ocolors odata].
    split; [apply well_formed_mk; try lia|]. do 3 (split; [reflexivity|]).
    intros y x k Hy Hx Hk. unfold px. cbn [owidth ocolors odata].
    replace ((y * w + x) * c + k) with (y * (w * c) + (x * c + k)) by ring. rewrite No by nia.
    f_equal. ring.
Qed.
Lemma transpose_ok : forall b, well_formed b ->
  exists o, transpose z b = Ok o /\ well_formed o /\ owidth o = oheight b /\ oheight o = owidth b /\ ocolors o = ocolors b /\
    forall y x k, 0 <= y < owidth b -> 0 <= x < oheight b -> 0 <= k < ocolors b -> px o y x k = px b x y k.
Proof.
  intros b Wf. pose proof Wf as (Hw & Hh & Hc & L & B). unfold transpose. cbn [op_new owidth oheight ocolors odata].
  destruct b as [w h c d]. cbn [owidth oheight ocolors odata] in *.
  assert (Pwc : 0 < h * c) by nia.
  match goal with |- context [par_lines _ _ ?f] => set (clo := f) end.
  destruct (par_lines_ok (h * c) w (repeat z (Z.to_nat (h * w * c))) clo
     (fun r i => at0 d ((i / c * w + r) * c + i mod c))) as [o [E [Lo No]]].
  - lia.
  - lia.
  - rewrite zlen_repeat. nia.
  - intros r l Hr Ll _. unfold clo.
    destruct (fill_pixels (fun col line =>
      let target := col * c in
      let source := (col * w + r) * c in
      rfold (fun c0 line => v <- get d (source + c0) ;; upd line (target + c0) v) (zrange 0 c) line)
      (fun x k => at0 d ((x * w + r) * c + k)) h c l)
      as [l' [E [L' N]]]; try lia.
    + intros x l' Hx Ll'. cbv zeta.
      assert (Bx : x * c + c <= h * c) by nia.
      destruct (fill_run (fun c0 line => v <- get d ((x * w + r) * c + c0) ;; upd line (x * c + c0) v)
        (fun k => at0 d ((x * w + r) * c + k)) (x * c) c l') as [l2 [E2 [L2 N2]]]; try nia.
      * intros k l2 Hk Ll2. rewrite get_at0. { reflexivity. } unfold zlen. rewrite L. apply px_bound; lia.
      * exists l2. split; [assumption|]. split; [lia|]. intros j Hj. apply N2. lia.
    + exists l'. split; [assumption|]. split; [assumption|]. intros i Hi.
      pose proof (Z.div_mod i c ltac:(lia)). pose proof (Z.mod_pos_bound i c Hc).
      replace i with (i / c * c + i mod c) at 1 by lia. apply N; [|assumption].
      split; [apply Z.div_pos; lia|apply Z.div_lt_upper_bound; lia].
  - rewrite E. cbn [bind]. eexists. split; [reflexivity|]. cbn [owidth oheight ocolors odata].
    split; [apply well_formed_mk; try lia|]. do 3 (split; [reflexivity|]).
    intros y x k Hy Hx Hk. unfold px. cbn [owidth ocolors odata].
    replace ((y * h + x) * c + k) with (y * (h * c) + (x * c + k)) by ring. rewrite No by nia.
    rewrite Z.div_add_l, Z.div_small, Z.add_0_r by lia. f_equal. f_equal.
    rewrite Z.add_comm, Z.mod_add by lia. apply Z.mod_small; lia.
Qed.

(** Where the output pixel (y, x) comes from. *)
Definition source (o : orientation) (w h y x : Z) : Z * Z :=
  match o with
  | Normal | Unknown => (y, x)
  | HorizontalFlip => (y, w - 1 - x)
  | Rotate180 => (h - 1 - y, w - 1 - x)
  | VerticalFlip => (h - 1 - y, x)
  | Transpose => (x, y)
  | Rotate90 => (h - 1 - x, y)
  | Transverse => (h - 1 - x, w - 1 - y)
  | Rotate270 => (x, w - 1 - y)
  end.
Definition swaps (o : orientation) : bool := fst (fst (to_flips o)).
Definition moved (o : orientation) (b r : opbuf A) : Prop :=
  well_formed r /\ ocolors r = ocolors b /\
  owidth r = (if swaps o then oheight b else owidth b) /\
  oheight r = (if swaps o then owidth b else oheight b) /\
  forall y x k, 0 <= y < oheight r -> 0 <= x < owidth r -> 0 <= k < ocolors b ->
    px r y x k = px b (fst (source o (owidth b) (oheight b) y x)) (snd (source o (owidth b) (oheight b) y x)) k.

Lemma rotate_ok : forall b o, well_formed b -> exists r, rotate_buffer z b o = Ok r /\ moved o b r.
Proof.
  intros b o Wf. pose proof Wf as (Hw & Hh & Hc & _).
  destruct o; unfold rotate_buffer, moved, swaps; cbn [to_flips fst snd source].
  - exists b. split; [reflexivity|]. split; [assumption|]. do 3 (split; [reflexivity|]). reflexivity.
  - destruct (flip_horizontal_ok b Wf) as (r & E & W & Rw & Rh & Rc & P). exists r. split; [exact E|].
    split; [exact W|]. do 3 (split; [assumption|]). intros. apply P; lia.
  - destruct (flip_vertical_ok b Wf) as (r & E & W & Rw & Rh & Rc & P). rewrite E. cbn [bind].
    destruct (flip_horizontal_ok r W) as (r2 & E2 & W2 & Rw2 & Rh2 & Rc2 & P2). exists r2. split; [exact E2|].
    split; [exact W2|]. do 3 (split; [congruence|]). intros. rewrite P2 by lia. rewrite Rw. rewrite P by lia. reflexivity.
  - destruct (flip_vertical_ok b Wf) as (r & E & W & Rw & Rh & Rc & P). exists r. split; [exact E|].
    split; [exact W|]. do 3 (split; [assumption|]). intros. apply P; lia.
  - destruct (transpose_ok b Wf) as (r & E & W & Rw & Rh & Rc & P). exists r. split; [exact E|].
    split; [exact W|]. do 3 (split; [assumption|]). intros. apply P; lia.
  - destruct (transpose_ok b Wf) as (r & E & W & Rw & Rh & Rc & P). rewrite E. cbn [bind].
    destruct (flip_horizontal_ok r W) as (r2 & E2 & W2 & Rw2 & Rh2 & Rc2 & P2). exists r2. split; [exact E2|].
    split; [exact W2|]. do 3 (split; [congruence|]). intros. rewrite P2 by lia. rewrite Rw. rewrite P by lia. reflexivity.
  - destruct (transpose_ok b Wf) as (r & E & W & Rw & Rh & Rc & P). rewrite E. cbn [bind].
    destruct (flip_horizontal_ok r W) as (r2 & E2 & W2 & Rw2 & Rh2 & Rc2 & P2). rewrite E2. cbn [bind].
    destruct (flip_vertical_ok r2 W2) as (r3 & E3 & W3 & Rw3 & Rh3 & Rc3 & P3). exists r3. split; [exact E3|].
    split; [exact W3|]. do 3 (split; [congruence|]). intros. rewrite P3 by lia. rewrite P2 by lia. rewrite P by lia. rewrite Rw, Rh2, Rh. reflexivity.
  - destruct (transpose_ok b Wf) as (r & E & W & Rw & Rh & Rc & P). rewrite E. cbn [bind].
    destruct (flip_vertical_ok r W) as (r2 & E2 & W2 & Rw2 & Rh2 & Rc2 & P2). exists r2. split; [exact E2|].
    split; [exact W2|]. do 3 (split; [congruence|]). intros. rewrite P2 by lia. rewrite Rh. rewrite P by lia. reflexivity.
  - exists b. split; [reflexivity|]. split; [assumption|]. do 3 (split; [reflexivity|]). reflexivity.
Qed.
Lemma moved_unique : forall o b r r', moved o b r -> moved o b r' -> r = r'.
Proof.
  intros o b r r' (W & C & Hw & Hh & P) (W' & C' & Hw' & Hh' & P').
  apply buf_ext; try assumption; try congruence. intros y x k Hy Hx Hk. rewrite P by (try assumption; congruence).
  rewrite P' by (try assumption; congruence). reflexivity.
Qed.
Lemma shown_moved : forall tag sides b r, exif tag = Some sides -> well_formed b -> moved (from_u16 tag) b r -> shown sides b r.
Proof.
  intros tag sides b r E Wb (W & C & Hw & Hh & P).
  assert (T : 1 <= tag <= 8).
  { unfold exif in E. repeat match type of E with match ?x with _ => _ end = _ => destruct x; try discriminate; try lia end. }
  pose proof Wb as (Bw & Bh & Bc & _).
  assert (K : tag = 1 \/ tag = 2 \/ tag = 3 \/ tag = 4 \/ tag = 5 \/ tag = 6 \/ tag = 7 \/ tag = 8) by lia.
  repeat destruct K as [->|K]; [..|subst tag]; cbn in E; injection E as <-;
  cbn [from_u16 Z.eqb Pos.eqb swaps to_flips fst snd source] in *;
  (split; [exact W|]; split; [exact C|]; split; [split; assumption|]; intros rr cc Hr Hc;
   unfold seen_at; cbn [fst snd from_side]; do 2 eexists; split; [reflexivity|]; split; [lia|]; split; [lia|];
   intros k Hk; rewrite sample_px by (try assumption; lia); rewrite sample_px by (try assumption; lia);
   f_equal; rewrite P by lia; f_equal; lia).
Qed.
End Poly.
