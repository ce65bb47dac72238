(** Demosaicing: what each sample is. *)
From Coq Require Import String ZArith List Bool Lia ZifyBool ZifyNat.
From Verif Require Import Base Num Threads Cfa Transform Image Gofloat Demosaic Spec_Orient P_Base P_Threads P_Orient P_Zip P_Ljpeg6 P_Sensor4.
Import ListNotations.
Local Open Scope Z_scope.

(** ** Lines changed in place *)
Section Lines.
Context {A : Type} (z : A).
Lemma update_run : forall (body : Z -> list A -> res (list A)) (v : Z -> option A) base n l,
  0 <= n -> 0 <= base -> base + n <= zlen l ->
  (forall c l', 0 <= c < n -> zlen l' = zlen l -> body c l' = match v c with Some x => upd l' (base + c) x | None => Ok l' end) ->
  exists l', rfold body (zrange 0 n) l = Ok l' /\ zlen l' = zlen l /\
    forall j, 0 <= j < zlen l -> at0 z l' j = if (base <=? j) && (j <? base + n) then match v (j - base) with Some x => x | None => at0 z l j end else at0 z l j.
Proof.
  intros body v base n l Hn Hb Hl Hbody. revert n Hn Hl Hbody.
  refine (natlike_ind _ _ _).
  - intros _ _. exists l. rewrite zrange_empty by lia. split; [reflexivity|]. split; [reflexivity|].
    intros j Hj. replace ((base <=? j) && (j <? base + 0)) with false by lia. reflexivity.
  - intros n Hn IH Hl Hbody. unfold Z.succ in *.
    destruct IH as [l1 [E1 [L1 N1]]]; [lia|intros; apply Hbody; lia|].
    rewrite zrange_snoc by lia. rewrite rfold_app, E1. cbn [bind rfold].
    rewrite Hbody by lia. destruct (v n) as [x|] eqn:V.
    + rewrite upd_ok by lia. cbn [bind].
      eexists. split; [reflexivity|]. split; [rewrite zlen_upd_nat; assumption|].
      intros j Hj. rewrite at0_upd_nat by lia. rewrite N1 by lia.
      destruct (Z.eqb_spec j (base + n)) as [->|Hne].
      * replace ((base <=? base + n) && (base + n <? base + (n + 1))) with true by lia. replace (base + n - base) with n by lia. rewrite V. reflexivity.
      * replace (j <? base + (n + 1)) with (j <? base + n) by lia. reflexivity.
    + cbn [bind]. exists l1. split; [reflexivity|]. split; [assumption|]. intros j Hj. rewrite N1 by lia.
      destruct (Z.eqb_spec j (base + n)) as [->|Hne].
      * replace (base + n <? base + n) with false by lia. rewrite andb_false_r. replace ((base <=? base + n) && (base + n <? base + (n + 1))) with true by lia. replace (base + n - base) with n by lia. rewrite V. reflexivity.
      * replace (j <? base + (n + 1)) with (j <? base + n) by lia. reflexivity.
Qed.
Lemma update_pixels : forall (body : Z -> list A -> res (list A)) (g : Z -> Z -> A -> A) w n l,
  0 <= w -> 0 < n -> zlen l = w * n ->
  (forall x l', 0 <= x < w -> zlen l' = w * n ->
     exists l2, body x l' = Ok l2 /\ zlen l2 = w * n /\
       forall j, 0 <= j < w * n -> at0 z l2 j = if (x * n <=? j) && (j <? x * n + n) then g x (j - x * n) (at0 z l' j) else at0 z l' j) ->
  exists l', rfold body (zrange 0 w) l = Ok l' /\ zlen l' = w * n /\
    forall x k, 0 <= x < w -> 0 <= k < n -> at0 z l' (x * n + k) = g x k (at0 z l (x * n + k)).
Proof.
  intros body g w n l Hw Hn Hl Hbody.
  assert (G : forall m, 0 <= m -> m <= w -> exists l', rfold body (zrange 0 m) l = Ok l' /\ zlen l' = w * n /\
    forall x k, 0 <= x < w -> 0 <= k < n -> at0 z l' (x * n + k) = if x <? m then g x k (at0 z l (x * n + k)) else at0 z l (x * n + k)).
  { refine (natlike_ind _ _ _).
    - intros _. exists l. rewrite zrange_empty by lia. split; [reflexivity|]. split; [assumption|]. intros x k Hx Hk. replace (x <? 0) with false by lia. reflexivity.
    - intros m Hm IH Hm2. unfold Z.succ in *. destruct IH as [l1 [E1 [L1 N1]]]; [lia|].
      destruct (Hbody m l1) as [l2 [E2 [L2 N2]]]; [lia|assumption|].
      exists l2. rewrite zrange_snoc by lia. rewrite rfold_app, E1. cbn [bind rfold]. rewrite E2. cbn [bind].
      split; [reflexivity|]. split; [assumption|]. intros x k Hx Hk.
      assert (B : 0 <= x * n + k < w * n) by nia.
      rewrite N2 by assumption. rewrite N1 by assumption. destruct (Z.eq_dec x m) as [->|Hne].
      + replace ((m * n <=? m * n + k) && (m * n + k <? m * n + n)) with true by lia. replace (m * n + k - m * n) with k by lia.
        replace (m <? m) with false by lia. replace (m <? m + 1) with true by lia. reflexivity.
      + replace ((m * n <=? x * n + k) && (x * n + k <? m * n + n)) with false by nia. replace (x <? m + 1) with (x <? m) by lia. reflexivity. }
  destruct (G w Hw ltac:(lia)) as [l' [E [L N]]]. exists l'. split; [exact E|]. split; [exact L|]. intros x k Hx Hk. rewrite N by assumption. replace (x <? w) with true by lia. reflexivity.
Qed.
End Lines.

Section Full.
Context {M : Mode} {A : Type} {N : Num A}.
Variables (cfa : CFA) (buf : opbuf A) (colf : Z -> Z -> Z).
Hypothesis WF : well_formed buf.
Hypothesis C1 : ocolors buf = 1.
Hypothesis Hcol : forall y x, 0 <= y < oheight buf -> 0 <= x < owidth buf -> color_at cfa y x = Ok (colf y x) /\ 0 <= colf y x < 4.
Let W := owidth buf.
Let H := oheight buf.
Definition val (y x : Z) : A := at0 n0 (odata buf) (y * W + x).
Lemma val_bound : forall y x, 0 <= y < H -> 0 <= x < W -> 0 <= y * W + x < zlen (odata buf).
Proof.
  intros y x Hy Hx. pose proof WF as (Hw & Hh & _ & L & _). unfold zlen. rewrite L, C1. fold W H. fold W in Hw. assert (y * W + W <= H * W) by (replace (y * W + W) with ((y + 1) * W) by ring; apply Z.mul_le_mono_nonneg_r; lia).
  assert (0 <= y * W) by (apply Z.mul_nonneg_nonneg; lia). lia.
Qed.
Lemma get_val : forall y x, 0 <= y < H -> 0 <= x < W -> get (odata buf) (y * W + x) = Ok (val y x).
Proof. intros y x Hy Hx. apply get_at0. apply val_bound; assumption. Qed.

(** The places around a place. *)
Definition around (row col : Z) : list (Z * Z) :=
  flat_map (fun y => map (fun x => (y, x)) (zrange (Z.max 0 (col - 1)) (Z.min W (col + 2)))) (zrange (Z.max 0 (row - 1)) (Z.min H (row + 2))).
Definition of_color (c : Z) (ps : list (Z * Z)) : list (Z * Z) := filter (fun p => colf (fst p) (snd p) =? c) ps.
Definition total (ps : list (Z * Z)) (start : A) : A := fold_left (fun s p => n_add s (val (fst p) (snd p))) ps start.
Lemma around_In : forall row col p, In p (around row col) <->
  Z.max 0 (row - 1) <= fst p < Z.min H (row + 2) /\ Z.max 0 (col - 1) <= snd p < Z.min W (col + 2).
Proof.
  clear WF C1 Hcol colf.
  intros row col [y x]. unfold around. rewrite in_flat_map. cbn [fst snd]. split.
  - intros [y' [Hy Hx]]. apply in_map_iff in Hx. destruct Hx as [x' [E Hx]]. injection E as <- <-. rewrite zrange_In in Hy, Hx. lia.
  - intros [Hy Hx]. exists y. split; [apply zrange_In; lia|]. apply in_map. apply zrange_In. lia.
Qed.
Lemma around_NoDup : forall row col, NoDup (around row col).
Proof.
  clear WF C1 Hcol colf.
  intros row col. unfold around. apply NoDup_flat.
  - apply zrange_NoDup.
  - intros y _. apply FinFun.Injective_map_NoDup; [intros a b E; injection E as <-; reflexivity|apply zrange_NoDup].
  - intros y y' p _ _ H1 H2. apply in_map_iff in H1, H2. destruct H1 as [a [<- _]]. destruct H2 as [b [E _]]. injection E as E _. congruence.
Qed.
Lemma around_length : forall row col, (length (around row col) <= 9)%nat.
Proof.
  clear WF C1 Hcol colf.
  intros row col. unfold around. assert (G : forall l : list Z, (length (flat_map (fun y => map (fun x => (y, x)) (zrange (Z.max 0 (col - 1)) (Z.min W (col + 2)))) l) <= 3 * length l)%nat).
  { induction l; [cbn; lia|]. cbn [flat_map length]. rewrite app_length, map_length, zrange_length. lia. }
  specialize (G (zrange (Z.max 0 (row - 1)) (Z.min H (row + 2)))). rewrite zrange_length in G. lia.
Qed.
Definition nbody (color : Z) (p : Z * Z) '(sums, counts) : res (list A * list Z) :=
  let '(y, x) := p in
  c <- color_at cfa y x ;;
  if negb (c =? color) then
    s <- get sums c ;; v <- get (odata buf) (y * owidth buf + x) ;; sums <- upd sums c (n_add s v) ;;
    n <- get counts c ;; counts <- upd counts c (n + 1) ;; Ok (sums, counts)
  else Ok (sums, counts).
Lemma rfold_map' : forall {X Y S} (f : Y -> S -> res S) (g : X -> Y) l s, rfold f (map g l) s = rfold (fun x => f (g x)) l s.
Proof. induction l; intros s; [reflexivity|]. cbn [map rfold]. destruct (f (g a) s); cbn [bind]; [apply IHl|reflexivity..]. Qed.
Lemma neighbours_flat : forall row col color, neighbours cfa buf row col color = rfold (nbody color) (around row col) (repeat n0 4, zeros 4).
Proof.
  intros. unfold neighbours, around. rewrite rfold_flat_map. apply rfold_ext. intros y st _. rewrite rfold_map'. reflexivity.
Qed.
Lemma neighbours_run : forall color ps, (forall p, In p ps -> 0 <= fst p < H /\ 0 <= snd p < W) -> forall sums counts, zlen sums = 4 -> zlen counts = 4 ->
  exists sums' counts', rfold (nbody color) ps (sums, counts) = Ok (sums', counts') /\ zlen sums' = 4 /\ zlen counts' = 4 /\
    forall c, 0 <= c < 4 -> c <> color ->
      at0 n0 sums' c = total (of_color c ps) (at0 n0 sums c) /\ at0 0 counts' c = at0 0 counts c + zlen (of_color c ps).
Proof.
  intros color ps. induction ps as [|[y x] ps IH]; intros Hps sums counts L1 L2.
  - exists sums, counts. split; [reflexivity|]. split; [exact L1|]. split; [exact L2|]. intros c Hc Hne. cbn. split; [reflexivity|lia].
  - cbn [rfold]. destruct (Hps (y, x) (or_introl eq_refl)) as [Hy Hx]. cbn [fst snd] in Hy, Hx. destruct (Hcol y x Hy Hx) as [E R].
    unfold nbody at 1. rewrite E. cbn [bind]. destruct (Z.eqb_spec (colf y x) color) as [Ec|Ec]; cbn [negb].
    + cbn [bind]. destruct (IH (fun p Hp => Hps p (or_intror Hp)) sums counts L1 L2) as [s' [c' [E' [L1' [L2' P]]]]]. exists s', c'. split; [exact E'|]. split; [exact L1'|]. split; [exact L2'|].
      intros c Hc Hne. destruct (P c Hc Hne) as [P1 P2]. unfold of_color. cbn [filter fst snd]. replace (colf y x =? c) with false by lia. split; [exact P1|exact P2].
    + rewrite (get_at0 n0) by lia. cbn [bind]. fold W. rewrite (get_val y x Hy Hx). cbn [bind]. rewrite upd_ok by lia. cbn [bind]. rewrite (get_at0 0) by lia. cbn [bind]. rewrite upd_ok by lia. cbn [bind].
      match goal with |- context [rfold _ ps (?s1, ?c1)] => destruct (IH (fun p Hp => Hps p (or_intror Hp)) s1 c1 ltac:(rewrite zlen_upd_nat; exact L1) ltac:(rewrite zlen_upd_nat; exact L2)) as [s' [c' [E' [L1' [L2' P]]]]] end.
      exists s', c'. split; [exact E'|]. split; [exact L1'|]. split; [exact L2'|]. intros c Hc Hne. destruct (P c Hc Hne) as [P1 P2].
      rewrite (at0_upd_nat n0 sums (colf y x) c) in P1 by lia. rewrite (at0_upd_nat 0 counts (colf y x) c) in P2 by lia. unfold of_color in *. cbn [filter fst snd]. rewrite (Z.eqb_sym (colf y x) c).
      destruct (Z.eqb_spec c (colf y x)) as [->|Hne2].
      * split; [exact P1|]. rewrite zlen_cons. lia.
      * split; [exact P1|exact P2].
Qed.

(** The value at a place. *)
Definition demosaiced (row col k : Z) : A :=
  if k =? colf row col then val row col
  else let ps := of_color k (around row col) in if 0 <? zlen ps then n_div (total ps n0) (n_of (zlen ps)) else n0.
Lemma known_ok : forall line row, 0 <= row < H -> zlen line = W * 4 -> (forall i, 0 <= i < W * 4 -> at0 n0 line i = n0) ->
  exists l, known_line cfa buf line row = Ok l /\ zlen l = W * 4 /\
    forall x k, 0 <= x < W -> 0 <= k < 4 -> at0 n0 l (x * 4 + k) = if k =? colf row x then val row x else n0.
Proof.
  intros line row Hr L Z0. unfold known_line. fold W. pose proof WF as (Hw & Hh & _ & Ld & _). fold W in Hw. fold H in Hh.
  assert (B : 0 <= W * row /\ W * row + W <= zlen (odata buf)).
  { pose proof (val_bound row (W - 1) Hr ltac:(lia)). assert (0 <= W * row) by (apply Z.mul_nonneg_nonneg; lia). lia. }
  rewrite slice_from_ok by lia. cbn [bind].
  destruct (zip_ok n0 n0 4 1 (fun col o i => color <- color_at cfa row col ;; v <- get i 0 ;; upd o color v) (fun x k => if k =? colf row x then val row x else n0)
    eq_refl eq_refl W line (skipn (Z.to_nat (W * row)) (odata buf))) as [l [E [Ll Nl]]].
  - lia.
  - lia.
  - rewrite zlen_skipn. lia.
  - intros k o i Hk Lo Li No Ni. destruct (Hcol row k Hr Hk) as [E R]. rewrite E. cbn [bind]. rewrite (get_at0 n0) by lia. cbn [bind]. rewrite upd_ok by lia.
    eexists. split; [reflexivity|]. split; [rewrite zlen_upd_nat; exact Lo|]. intros j Hj. rewrite (at0_upd_nat n0 o (colf row k) j) by lia.
    rewrite Ni by lia. rewrite at0_skipn by lia. rewrite No by lia. rewrite Z0 by lia. destruct (j =? colf row k); [|reflexivity]. unfold val. f_equal. lia.
  - exists l. split; [exact E|]. split; [lia|exact Nl].
Qed.
Lemma other_ok : forall line row, 0 <= row < H -> zlen line = W * 4 -> 
  (forall x k, 0 <= x < W -> 0 <= k < 4 -> at0 n0 line (x * 4 + k) = if k =? colf row x then val row x else n0) ->
  exists l, other_line cfa buf line row = Ok l /\ zlen l = W * 4 /\
    forall x k, 0 <= x < W -> 0 <= k < 4 -> at0 n0 l (x * 4 + k) = demosaiced row x k.
Proof.
  intros line row Hr L K. unfold other_line. fold W. pose proof WF as (Hw & Hh & _ & Ld & _). fold W in Hw. fold H in Hh.
  set (new x c := if c =? colf row x then None else let ps := of_color c (around row x) in if 0 <? zlen ps then Some (n_div (total ps n0) (n_of (zlen ps))) else None).
  destruct (update_pixels n0 (fun col line => color <- color_at cfa row col ;; '(sums, counts) <- neighbours cfa buf row col color ;;
    rfold (fun c line => n <- get counts c ;; if negb (c =? color) && (0 <? n) then s <- get sums c ;; upd line (col * 4 + c) (n_div s (n_of n)) else Ok line) (zrange 0 4) line)
    (fun x k old => match new x k with Some v => v | None => old end) W 4 line) as [l [E [Ll Nl]]]; [lia|lia|exact L| |].
  - intros x l' Hx Ll'. destruct (Hcol row x Hr Hx) as [E R]. rewrite E. cbn [bind]. rewrite neighbours_flat.
    destruct (neighbours_run (colf row x) (around row x)) with (sums := repeat (n0 : A) 4) (counts := zeros 4) as [s' [c' [E' [L1 [L2 P]]]]].
    + intros p Hp. apply around_In in Hp. lia.
    + reflexivity.
    + reflexivity.
    + rewrite E'. cbn [bind].
      destruct (update_run n0 (fun c line => n <- get c' c ;; if negb (c =? colf row x) && (0 <? n) then s <- get s' c ;; upd line (x * 4 + c) (n_div s (n_of n)) else Ok line)
        (new x) (x * 4) 4 l') as [l2 [E2 [L2' N2]]]; [lia|lia|lia| |].
      * intros c l3 Hc L3. rewrite (get_at0 0) by lia. cbn [bind]. unfold new. destruct (Z.eqb_spec c (colf row x)) as [->|Hne]; cbn [negb andb]; [reflexivity|].
        destruct (P c Hc Hne) as [P1 P2]. rewrite P2. replace (at0 0 (zeros 4) c) with 0 by (unfold at0, zeros; symmetry; apply nth_repeat). cbn [Z.add].
        cbv zeta. destruct (0 <? zlen (of_color c (around row x))); [|reflexivity]. rewrite (get_at0 n0) by lia. cbn [bind]. rewrite P1. f_equal. f_equal. f_equal. unfold at0. apply nth_repeat.
      * exists l2. split; [exact E2|]. split; [lia|]. intros j Hj. apply N2. lia.
  - exists l. split; [exact E|]. split; [exact Ll|]. intros x k Hx Hk. rewrite Nl by assumption. rewrite K by assumption. unfold new, demosaiced. destruct (k =? colf row x); [reflexivity|].
    cbv zeta. destruct (0 <? zlen (of_color k (around row x))); reflexivity.
Qed.
Lemma mem_bound : W * H * 4 < 2 ^ 63 -> forall img, img_cropped_cfa img = Ok cfa ->
  exists out, full img buf = Ok out /\ well_formed out /\ ocolors out = 4 /\ owidth out = W /\ oheight out = H /\
    forall y x k, 0 <= y < H -> 0 <= x < W -> 0 <= k < 4 -> sample_at out y x k = Some (demosaiced y x k).
Proof.
  intros Hm img Ec. unfold full. rewrite Ec. cbn [bind]. fold W H. pose proof WF as (Hw & Hh & _ & Ld & _). fold W in Hw. fold H in Hh.
  assert (Lw : zlen (odata (op_new (n0 : A) W H 4)) = W * 4 * H) by (unfold op_new; cbn [odata]; rewrite zlen_repeat; nia).
  assert (DM : forall i, 0 <= i -> i = i / 4 * 4 + i mod 4) by (intros; rewrite (Z.mul_comm (i / 4)); apply Z.div_mod; lia).
  assert (DB : forall i, 0 <= i < W * 4 -> 0 <= i / 4 < W /\ 0 <= i mod 4 < 4) by (intros i Hi; split; [split; [apply Z.div_pos; lia|apply Z.div_lt_upper_bound; lia]|apply Z.mod_pos_bound; lia]).
  destruct (par_lines_ok (n0 : A) (W * 4) H (odata (op_new n0 W H 4)) (known_line cfa buf) (fun r i => if i mod 4 =? colf r (i / 4) then val r (i / 4) else n0)) as [d1 [E1 [L1 N1]]]; [lia|lia|exact Lw| |].
  { intros r l Hr Ll Nl. destruct (known_ok l r Hr Ll) as [l' [E' [L' N']]].
    - intros i Hi. rewrite Nl by exact Hi. unfold op_new. cbn [odata]. unfold at0. apply nth_repeat.
    - exists l'. split; [exact E'|]. split; [exact L'|]. intros i Hi. destruct (DB i Hi). rewrite (DM i) at 1 by lia. rewrite N' by assumption. reflexivity. }
  rewrite E1. cbn [bind].
  destruct (par_lines_ok (n0 : A) (W * 4) H d1 (other_line cfa buf) (fun r i => demosaiced r (i / 4) (i mod 4))) as [d2 [E2 [L2 N2]]]; [lia|lia|exact L1| |].
  { intros r l Hr Ll Nl. destruct (other_ok l r Hr Ll) as [l' [E' [L' N']]].
    - intros x k Hx Hk. rewrite Nl by lia. rewrite N1 by lia. replace ((x * 4 + k) / 4) with x by (symmetry; rewrite Z.div_add_l by lia; rewrite Z.div_small by lia; lia).
      replace ((x * 4 + k) mod 4) with k by (symmetry; rewrite Z.add_comm, Z.mod_add by lia; apply Z.mod_small; lia). reflexivity.
    - exists l'. split; [exact E'|]. split; [exact L'|]. intros i Hi. destruct (DB i Hi). rewrite (DM i) at 1 by lia. apply N'; assumption. }
  rewrite E2. cbn [bind]. eexists. split; [reflexivity|].
  assert (WF2 : well_formed (mkop W H 4 d2)) by (apply well_formed_mk; [exact Hw|exact Hh|lia|lia|exact Hm]).
  split; [exact WF2|]. cbn [ocolors owidth oheight]. split; [reflexivity|]. split; [reflexivity|]. split; [reflexivity|].
  intros y x k Hy Hx Hk. rewrite (sample_px n0) by (cbn [ocolors owidth oheight]; (exact WF2 || lia)). unfold px. cbn [odata owidth ocolors]. f_equal.
  replace ((y * W + x) * 4 + k) with (y * (W * 4) + (x * 4 + k)) by ring. rewrite N2 by lia.
  replace ((x * 4 + k) / 4) with x by (symmetry; rewrite Z.div_add_l by lia; rewrite Z.div_small by lia; lia).
  replace ((x * 4 + k) mod 4) with k by (symmetry; rewrite Z.add_comm, Z.mod_add by lia; apply Z.mod_small; lia). reflexivity.
Qed.
End Full.
