(** The base curve: construction and search. *)
From Coq Require Import ZArith List Bool Reals Lia Lra ZifyBool ZifyNat.
From Verif Require Import Base Num Image Gofloat Colors P_Base P_Orient.
Import ListNotations.
Local Open Scope Z_scope.

Section S.
Context {M : Mode} {A : Type} {N : Num A}.
Variable z : A.
Notation at0 := (at0 z).

Lemma mapM_table : forall {B} (zb : B) (f : Z -> res B) (g : Z -> B) n, 0 <= n -> (forall i, 0 <= i < n -> f i = Ok (g i)) ->
  mapM f (zrange 0 n) = Ok (map g (zrange 0 n)) /\ zlen (map g (zrange 0 n)) = n /\ forall i, 0 <= i < n -> P_Orient.at0 zb (map g (zrange 0 n)) i = g i.
Proof.
  intros B zb f g n Hn H. split; [apply mapM_map; intros x Hx; apply H; apply zrange_In; exact Hx|]. split.
  - unfold zlen. rewrite map_length, zrange_length. lia.
  - intros i Hi. unfold P_Orient.at0. rewrite nth_indep with (d' := g 0) by (rewrite map_length, zrange_length; lia).
    rewrite map_nth, zrange_nth by lia. f_equal. lia.
Qed.
Lemma at0_cons : forall {B} (zb : B) x l i, 0 <= i -> P_Orient.at0 zb (x :: l) i = if i =? 0 then x else P_Orient.at0 zb l (i - 1).
Proof.
  intros B zb x l i H. unfold P_Orient.at0. destruct (Z.eqb_spec i 0) as [->|]; [reflexivity|]. replace (Z.to_nat i) with (S (Z.to_nat (i - 1))) by lia. reflexivity.
Qed.
Lemma at0_snoc : forall {B} (zb : B) x l i, 0 <= i <= zlen l -> P_Orient.at0 zb (l ++ [x]) i = if i =? zlen l then x else P_Orient.at0 zb l i.
Proof.
  intros B zb x l i H. unfold P_Orient.at0, zlen in *. destruct (Z.eqb_spec i (Z.of_nat (length l))) as [->|].
  - rewrite Nat2Z.id, app_nth2 by lia. rewrite Nat.sub_diag. reflexivity.
  - apply app_nth1. lia.
Qed.

Variables xs ys : list A.
Hypothesis LEN : 2 <= zlen xs.
Hypothesis LENY : zlen ys = zlen xs.
Definition step_of (i : Z) : A := n_sub (at0 xs (i + 1)) (at0 xs i).
Definition slope_of (i : Z) : A := n_div (n_sub (at0 ys (i + 1)) (at0 ys i)) (step_of i).
Definition tangent (i : Z) : A :=
  if i =? 0 then slope_of 0 else if i =? zlen xs - 1 then slope_of (zlen xs - 2)
  else spline_inner (step_of (i - 1)) (slope_of (i - 1)) (step_of i) (slope_of i).
Definition curvature (i : Z) : A * A := spline_coeffs (step_of i) (slope_of i) (tangent i) (tangent (i + 1)).

Definition is_spline (s : spline) : Prop :=
  s_xs s = xs /\ s_ys s = ys /\ zlen (s_c1 s) = zlen xs /\ zlen (s_c2 s) = zlen xs - 1 /\ zlen (s_c3 s) = zlen xs - 1 /\
  (forall i, 0 <= i < zlen xs -> at0 (s_c1 s) i = tangent i) /\
  (forall i, 0 <= i < zlen xs - 1 -> at0 (s_c2 s) i = fst (curvature i) /\ at0 (s_c3 s) i = snd (curvature i)).
Lemma spline_new_ok : exists s, spline_new xs ys = Ok s /\ is_spline s.
Proof.
  set (n := zlen xs) in *. unfold spline_new. fold n. replace (negb (n =? zlen ys)) with false by lia. replace (n <? 2) with false by lia.
  destruct (mapM_table (z, z) (fun i => a <- get xs (i + 1) ;; b <- get xs i ;; c <- get ys (i + 1) ;; d <- get ys i ;;
    Ok (n_sub a b, n_div (n_sub c d) (n_sub a b))) (fun i => (step_of i, slope_of i)) (n - 1)) as [E1 [L1 V1]]; [lia| |].
  { intros i Hi. rewrite (get_at0 z xs (i + 1)) by lia. cbn [bind]. rewrite (get_at0 z xs i) by lia. cbn [bind]. rewrite (get_at0 z ys (i + 1)) by lia. cbn [bind].
    rewrite (get_at0 z ys i) by lia. reflexivity. }
  unfold spline_slopes. fold n. rewrite E1. cbn [bind]. clear E1. set (ds := map (fun i => (step_of i, slope_of i)) (zrange 0 (n - 1))) in *. clearbody ds.
  rewrite (get_at0 (z, z) ds 0) by lia. cbn [bind]. rewrite L1.
  destruct (mapM_table z (fun i => a <- get ds i ;; b <- get ds (i + 1) ;; Ok (spline_inner (fst a) (snd a) (fst b) (snd b)))
    (fun i => spline_inner (step_of i) (slope_of i) (step_of (i + 1)) (slope_of (i + 1))) (n - 1 - 1)) as [E2 [L2 V2]]; [lia| |].
  { intros i Hi. rewrite (get_at0 (z, z) ds i) by lia. cbn [bind]. rewrite (get_at0 (z, z) ds (i + 1)) by lia. cbn [bind]. rewrite !V1 by lia. reflexivity. }
  rewrite E2. cbn [bind]. clear E2. set (inner := map _ (zrange 0 (n - 1 - 1))) in *. clearbody inner.
  rewrite (get_at0 (z, z) ds (n - 1 - 1)) by lia. cbn [bind]. rewrite !V1 by lia. cbn [snd].
  set (c1s := slope_of 0 :: inner ++ [slope_of (n - 1 - 1)]).
  assert (L3 : zlen c1s = n). { unfold c1s. rewrite zlen_cons. unfold zlen in *. rewrite app_length. cbn [length]. lia. }
  assert (V3 : forall i, 0 <= i < n -> at0 c1s i = tangent i).
  { intros i Hi. unfold c1s, tangent. fold n. rewrite at0_cons by lia. destruct (i =? 0) eqn:E0; [reflexivity|]. rewrite at0_snoc by lia. rewrite L2.
    replace (i - 1 =? n - 1 - 1) with (i =? n - 1) by lia. destruct (i =? n - 1) eqn:E1; [replace (n - 1 - 1) with (n - 2) by lia; reflexivity|].
    rewrite V2 by lia. replace (i - 1 + 1) with i by lia. reflexivity. }
  clearbody c1s. rewrite L3.
  destruct (mapM_table (z, z) (fun i => c1 <- get c1s i ;; next <- get c1s (i + 1) ;; d <- get ds i ;; Ok (spline_coeffs (fst d) (snd d) c1 next))
    curvature (n - 1)) as [E4 [L4 V4]]; [lia| |].
  { intros i Hi. rewrite (get_at0 z c1s i) by lia. cbn [bind]. rewrite (get_at0 z c1s (i + 1)) by lia. cbn [bind]. rewrite (get_at0 (z, z) ds i) by lia. cbn [bind].
    rewrite V1, !V3 by lia. reflexivity. }
  rewrite E4. cbn [bind]. clear E4. set (cs := map curvature (zrange 0 (n - 1))) in *. clearbody cs. eexists. split; [reflexivity|].
  unfold is_spline. cbn [s_xs s_ys s_c1 s_c2 s_c3]. split; [reflexivity|]. split; [reflexivity|]. split; [exact L3|].
  split; [unfold zlen in *; rewrite map_length; lia|]. split; [unfold zlen in *; rewrite map_length; lia|]. split; [exact V3|].
  intros i Hi. rewrite <- (V4 i Hi). unfold P_Orient.at0, zlen in *. split.
  - rewrite nth_indep with (d' := fst (z, z)) by (rewrite map_length; lia). apply map_nth.
  - rewrite nth_indep with (d' := snd (z, z)) by (rewrite map_length; lia). apply map_nth.
Qed.

(** The piece that starts at point [i]. *)
Definition piece (i : Z) (v : A) : A :=
  (let d := v - at0 xs i in at0 ys i + tangent i * d + fst (curvature i) * d * d + snd (curvature i) * d * d * d)%num.
Section Search.
Variable s : spline (A := A).
Hypothesis SP : is_spline s.
Lemma search_total : forall fuel val low high, 0 <= low <= high + 1 -> high < zlen xs - 1 -> high - low + 2 <= Z.of_nat fuel ->
  exists r, spline_search fuel s val low high = Ok r /\
    match r with inl y => exists i, 0 <= i < zlen xs - 1 /\ y = at0 ys i | inr i => 0 <= i < zlen xs - 1 end.
Proof.
  pose proof SP as (X & Y & _). induction fuel as [|fuel IH]; intros val low high Hl Hh Hf; [lia|].
  cbn [spline_search]. rewrite X, Y. destruct (Z.leb_spec low high) as [L|L].
  - assert (Q : low <= Z.quot (low + high) 2 <= high). { rewrite Z.quot_div_nonneg by lia. split; [apply Z.div_le_lower_bound; lia|apply Z.div_le_upper_bound; lia]. }
    cbv zeta. set (mid := Z.quot (low + high) 2) in *. clearbody mid. rewrite (get_at0 z xs mid) by lia. cbn [bind].
    destruct (n_lt (at0 xs mid) val); [apply IH; lia|]. destruct (n_lt val (at0 xs mid)); [apply IH; lia|].
    rewrite (get_at0 z ys mid) by lia. cbn [bind]. eexists. split; [reflexivity|]. exists mid. split; [lia|reflexivity].
  - eexists. split; [reflexivity|]. cbn beta iota. lia.
Qed.
Hypothesis LIM : zlen xs < 2 ^ 63.
Lemma interpolate_eq : forall val, interpolate s val =
  if n_le (at0 xs (zlen xs - 1)) val then Ok (at0 ys (zlen xs - 1))
  else r <- spline_search (S (S (length (s_c3 s)))) s val 0 (zlen xs - 2) ;;
    match r with inl y => Ok y | inr i => if (0 <=? i) && (i <? zlen xs - 1) then Ok (piece i val) else Panic end.
Proof.
  intros val. pose proof SP as (X & Y & L1 & L2 & L3 & V1 & V2). unfold interpolate. rewrite X, Y. change (2 ^ 63) with 9223372036854775808 in LIM.
  rewrite usub_ok by (change (2 ^ 64) with 18446744073709551616; lia). cbn [bind]. rewrite (get_at0 z xs) by lia. cbn [bind].
  destruct (n_le (at0 xs (zlen xs - 1)) val).
  - rewrite usub_ok by (change (2 ^ 64) with 18446744073709551616; lia). cbn [bind]. rewrite LENY. apply get_at0. lia.
  - rewrite L3. rewrite usub_ok by (change (2 ^ 64) with 18446744073709551616; lia). cbn [bind]. replace (zlen xs - 1 - 1) with (zlen xs - 2) by lia.
    destruct (search_total (S (S (length (s_c3 s)))) val 0 (zlen xs - 2)) as [r [E P]]; [lia|lia|unfold zlen in *; lia|]. rewrite E. cbn [bind].
    destruct r as [y|i]; [reflexivity|]. replace ((0 <=? i) && (i <? zlen xs - 1)) with true by lia.
    rewrite (get_at0 z xs) by lia. cbn [bind]. rewrite (get_at0 z ys) by lia. cbn [bind]. rewrite (get_at0 z (s_c1 s)) by lia. cbn [bind].
    rewrite (get_at0 z (s_c2 s)) by lia. cbn [bind]. rewrite (get_at0 z (s_c3 s)) by lia. cbn [bind]. rewrite V1 by lia. destruct (V2 i ltac:(lia)) as [-> ->]. reflexivity.
Qed.
Lemma interpolate_total : forall val, exists v, interpolate s val = Ok v.
Proof.
  intros val. rewrite interpolate_eq. destruct (n_le (at0 xs (zlen xs - 1)) val); [eexists; reflexivity|].
  pose proof SP as (X & Y & L1 & L2 & L3 & _).
  destruct (search_total (S (S (length (s_c3 s)))) val 0 (zlen xs - 2)) as [r [E P]]; [lia|lia|unfold zlen in *; lia|]. rewrite E. cbn [bind].
  destruct r as [y|i]; [eexists; reflexivity|]. replace ((0 <=? i) && (i <? zlen xs - 1)) with true by lia. eexists. reflexivity.
Qed.

(** [key] puts the numbers in order. *)
Variable good : A -> Prop.
Variable key : A -> R.
Hypothesis LT : forall x y, good x -> good y -> (n_lt x y = true <-> (key x < key y)%R).
Hypothesis LE : forall x y, good x -> good y -> (n_le x y = true <-> (key x <= key y)%R).
Hypothesis GX : forall i, 0 <= i < zlen xs -> good (at0 xs i).
Hypothesis SORTED : forall i j, 0 <= i < j -> j < zlen xs -> (key (at0 xs i) < key (at0 xs j))%R.
Notation kx i := (key (at0 xs i)).
Lemma search_finds : forall fuel val low high, good val -> 0 <= low <= high + 1 -> high < zlen xs - 1 -> high - low + 2 <= Z.of_nat fuel ->
  (forall j, 0 <= j < low -> (kx j < key val)%R) -> (forall j, high < j < zlen xs -> (key val < kx j)%R) ->
  exists r, spline_search fuel s val low high = Ok r /\
    match r with
    | inl y => exists i, 0 <= i < zlen xs - 1 /\ kx i = key val /\ y = at0 ys i
    | inr i => 0 <= i < zlen xs - 1 /\ (key val < kx (i + 1))%R /\ ((kx i < key val)%R \/ i = 0 /\ (key val < kx 0)%R)
    end.
Proof.
  pose proof SP as (X & Y & _). induction fuel as [|fuel IH]; intros val low high G Hl Hh Hf B1 B2; [lia|].
  cbn [spline_search]. rewrite X, Y. destruct (Z.leb_spec low high) as [L|L].
  - assert (Q : low <= Z.quot (low + high) 2 <= high). { rewrite Z.quot_div_nonneg by lia. split; [apply Z.div_le_lower_bound; lia|apply Z.div_le_upper_bound; lia]. }
    cbv zeta. set (mid := Z.quot (low + high) 2) in *. clearbody mid. rewrite (get_at0 z xs mid) by lia. cbn [bind].
    assert (Gm : good (at0 xs mid)) by (apply GX; lia).
    destruct (n_lt (at0 xs mid) val) eqn:E1; [apply LT in E1; try assumption|].
    + apply IH; try assumption; try lia. intros j Hj. destruct (Z.eq_dec j mid) as [->|]; [exact E1|]. destruct (Z_lt_dec j mid); [|lia].
      pose proof (SORTED j mid ltac:(lia) ltac:(lia)). lra.
    + destruct (n_lt val (at0 xs mid)) eqn:E2; [apply LT in E2; try assumption|].
      * apply IH; try assumption; try lia. intros j Hj. destruct (Z.eq_dec j mid) as [->|]; [exact E2|]. pose proof (SORTED mid j ltac:(lia) ltac:(lia)). lra.
      * rewrite (get_at0 z ys mid) by lia. cbn [bind]. eexists. split; [reflexivity|]. exists mid. split; [lia|]. split; [|reflexivity].
        apply not_true_iff_false in E1, E2. rewrite LT in E1, E2 by assumption. lra.
  - eexists. split; [reflexivity|]. cbn beta iota. replace high with (low - 1) in * by lia.
    destruct (Z_lt_dec 0 low) as [P|P].
    + replace (Z.max 0 (low - 1)) with (low - 1) by lia. split; [lia|]. split; [apply B2; lia|]. left. apply B1. lia.
    + replace (Z.max 0 (low - 1)) with 0 by lia. split; [lia|]. assert (low = 0) by lia. subst low. split; [apply B2; lia|]. right. split; [reflexivity|apply B2; lia].
Qed.
Lemma interpolate_finds : forall val, good val -> (key val < kx (zlen xs - 1))%R ->
  exists v, interpolate s val = Ok v /\
    ((exists i, 0 <= i < zlen xs - 1 /\ kx i = key val /\ v = at0 ys i) \/
     (exists i, 0 <= i < zlen xs - 1 /\ (key val < kx (i + 1))%R /\ ((kx i < key val)%R \/ i = 0 /\ (key val < kx 0)%R) /\ v = piece i val)).
Proof.
  intros val G H. pose proof SP as (X & Y & L1 & L2 & L3 & _). rewrite interpolate_eq. destruct (n_le (at0 xs (zlen xs - 1)) val) eqn:E.
  { apply LE in E; [lra|apply GX; lia|exact G]. }
  destruct (search_finds (S (S (length (s_c3 s)))) val 0 (zlen xs - 2)) as [r [E2 P]]; [exact G|lia|lia|unfold zlen in *; lia|intros; lia| |].
  { intros j Hj. replace j with (zlen xs - 1) by lia. exact H. }
  rewrite E2. cbn [bind]. destruct r as [y|i].
  - eexists. split; [reflexivity|]. left. exact P.
  - destruct P as [P1 [P2 P3]]. replace ((0 <=? i) && (i <? zlen xs - 1)) with true by lia. eexists. split; [reflexivity|]. right. exists i. auto.
Qed.
Lemma at_point : forall val i, good val -> 0 <= i < zlen xs -> kx i = key val -> interpolate s val = Ok (at0 ys i).
Proof.
  intros val i G Hi E. destruct (Z.eq_dec i (zlen xs - 1)) as [->|N1].
  - rewrite interpolate_eq. replace (n_le (at0 xs (zlen xs - 1)) val) with true; [reflexivity|]. symmetry. apply LE; [apply GX; lia|exact G|lra].
  - pose proof (SORTED i (zlen xs - 1) ltac:(lia) ltac:(lia)). destruct (interpolate_finds val G ltac:(lra)) as [v [-> [[j [Hj [K ->]]]|[j [Hj [K1 [K2 ->]]]]]]].
    + f_equal. f_equal. destruct (Ztrichotomy i j) as [C|[C|C]]; [|exact (eq_sym C)|]; [pose proof (SORTED i j ltac:(lia) ltac:(lia))|pose proof (SORTED j i ltac:(lia) ltac:(lia))]; lra.
    + exfalso. destruct (Z_lt_dec i (j + 1)) as [C|C].
      * destruct K2 as [K2|[K2 K3]]; [|subst j; replace i with 0 in * by lia; lra]. destruct (Z.eq_dec i j) as [->|]; [lra|]. pose proof (SORTED i j ltac:(lia) ltac:(lia)). lra.
      * destruct (Z.eq_dec i (j + 1)) as [->|]; [lra|]. pose proof (SORTED (j + 1) i ltac:(lia) ltac:(lia)). lra.
Qed.
Lemma in_piece : forall val i, good val -> 0 <= i < zlen xs - 1 -> (kx i < key val < kx (i + 1))%R -> interpolate s val = Ok (piece i val).
Proof.
  intros val i G Hi [E1 E2]. assert (H : (key val < kx (zlen xs - 1))%R).
  { destruct (Z.eq_dec (i + 1) (zlen xs - 1)) as [<-|]; [exact E2|]. pose proof (SORTED (i + 1) (zlen xs - 1) ltac:(lia) ltac:(lia)). lra. }
  destruct (interpolate_finds val G H) as [v [-> [[j [Hj [K ->]]]|[j [Hj [K1 [K2 ->]]]]]]].
  - exfalso. destruct (Z_lt_dec j (i + 1)) as [C|C].
    + destruct (Z.eq_dec j i) as [->|]; [lra|]. pose proof (SORTED j i ltac:(lia) ltac:(lia)). lra.
    + destruct (Z.eq_dec j (i + 1)) as [->|]; [lra|]. pose proof (SORTED (i + 1) j ltac:(lia) ltac:(lia)). lra.
  - f_equal. f_equal. destruct (Ztrichotomy j i) as [C|[C|C]]; [|exact C|].
    + exfalso. destruct (Z.eq_dec (j + 1) i) as [<-|]; [lra|]. pose proof (SORTED (j + 1) i ltac:(lia) ltac:(lia)). lra.
    + exfalso. destruct K2 as [K2|[K2 _]]; [|lia]. destruct (Z.eq_dec (i + 1) j) as [<-|]; [lra|]. pose proof (SORTED (i + 1) j ltac:(lia) ltac:(lia)). lra.
Qed.
Lemma beyond : forall val, good val -> (kx (zlen xs - 1) <= key val)%R -> interpolate s val = Ok (at0 ys (zlen xs - 1)).
Proof.
  intros val G H. rewrite interpolate_eq. replace (n_le (at0 xs (zlen xs - 1)) val) with true; [reflexivity|]. symmetry. apply LE; [apply GX; lia|exact G|exact H].
Qed.
Lemma before : forall val, good val -> (key val < kx 0)%R -> interpolate s val = Ok (piece 0 val).
Proof.
  intros val G E. assert (H : (key val < kx (zlen xs - 1))%R). { pose proof (SORTED 0 (zlen xs - 1) ltac:(lia) ltac:(lia)). lra. }
  destruct (interpolate_finds val G H) as [v [-> [[j [Hj [K ->]]]|[j [Hj [K1 [K2 ->]]]]]]].
  - exfalso. destruct (Z.eq_dec j 0) as [->|]; [lra|]. pose proof (SORTED 0 j ltac:(lia) ltac:(lia)). lra.
  - destruct (Z.eq_dec j 0) as [->|]; [reflexivity|]. exfalso. destruct K2 as [K2|[K2 _]]; [|lia]. pose proof (SORTED 0 j ltac:(lia) ltac:(lia)). lra.
Qed.
End Search.
End S.
