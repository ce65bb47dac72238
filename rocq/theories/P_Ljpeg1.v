(** Proofs about lossless JPEG: prediction inversion. *)
From Coq Require Import String ZArith List Bool Lia ZifyBool ZifyNat.
From Verif Require Import Base Pumps Threads Packed Huffman Ljpeg Spec_Bits Spec_Pump Spec_Stream Spec_Huffman Spec_Ljpeg
  P_Base P_Bits P_Pumps P_Huff4 P_Huff5 P_Huff6.
Import ListNotations.
Local Open Scope Z_scope.
Ltac Zify.zify_post_hook ::= Z.div_mod_to_equations.

Lemma upto_zrange : forall n, upto n = zrange 0 n.
Proof. intros. unfold upto, zrange. rewrite Z.sub_0_r. apply map_ext. intros. lia. Qed.

(** A table and the code it reads. *)
Definition codes {M : Mode} (k : pkind) (t : hufftable) (enc : Z -> list bool) (fits : Z -> Prop) : Prop :=
  forall d p rest, fits d -> (32 <= length rest)%nat -> Repr k p (enc d ++ rest) ->
    exists p', huff_decode k t p = Ok (d, p') /\ Repr k p' rest.

Lemma position_nth : forall x l, In x l -> (position x l < length l)%nat /\ nth (position x l) l 0 = x.
Proof.
  intros x l. induction l as [|y l IH]; intros H; [destruct H|]. cbn [position length].
  destruct (y =? x) eqn:E; [cbn; lia|]. destruct H as [H|H]; [lia|]. destruct (IH H) as [A B]. cbn [nth]. split; [lia|exact B].
Qed.

Lemma code_codes : forall {M : Mode} k prec dng h t, k <> LSB -> 0 <= prec <= 16 -> good_code debug prec h ->
  (dng = true -> ~ In 16 (hc_syms h)) ->
  huff_new (0 :: hc_counts h) (padded (hc_syms h)) prec dng = Ok t ->
  codes k t (code_of h) (fun d => -32768 <= d <= 32767 /\ has_word prec h d).
Proof.
  intros M k prec dng h t Hk Hp [Hc [Hs [Hf [_ H16]]]] Hd Hn d p rest [Hr [Hi Hw]] Hl R.
  destruct (position_nth _ _ Hi) as [P1 P2].
  destruct (diffs_ok (hc_counts h) (hc_syms h) prec dng t Hc Hs Hf Hn Hp H16 Hd t k (category_word h) [d] p rest (or_introl eq_refl) Hk Hl) as [p' [E R']].
  - apply Forall_cons; [|apply Forall_nil]. split; [exact Hr|]. split; [|split; [exact P2|exact Hw]].
    unfold category_word. destruct Hs as [Hs _]. rewrite <- Hs. exact P1.
  - cbn [flat_map]. rewrite app_nil_r. exact R.
  - cbn [length times] in E. exists p'. split; [|exact R'].
    destruct (huff_decode k t p) as [[d' p1]| | |]; cbn in E; try discriminate. apply Ok_inj in E. congruence.
Qed.

(** ** One pixel *)
Section Pixel.
Context {M : Mode}.
Variable k : pkind.

Definition coder := ((Z -> list bool) * (Z -> Prop))%type.
Lemma diffs_codes : forall ts (cs : list coder) ds p rest,
  Forall2 (fun t e => codes k t (fst e) (snd e)) ts cs -> Forall2 (fun (e : coder) d => snd e d) cs ds ->
  (32 <= length rest)%nat -> Repr k p (concat (map (fun '(e, d) => fst e d) (combine cs ds)) ++ rest) ->
  exists p', diffs k ts p = Ok (ds, p') /\ Repr k p' rest.
Proof.
  induction ts as [|t ts IH]; intros cs ds p rest HT HD Hr R.
  - inversion HT; subst. inversion HD; subst. exists p. split; [reflexivity|exact R].
  - inversion HT as [|? e ? cs' T1 T2]; subst. inversion HD as [|? d ? ds' D1 D2]; subst. cbn [combine map concat] in R.
    rewrite <- app_assoc in R.
    destruct (T1 d p (concat (map (fun '(e, d) => fst e d) (combine cs' ds')) ++ rest) D1 ltac:(rewrite app_length; lia) R) as [p1 [E1 R1]].
    destruct (IH cs' ds' p1 rest T2 D2 Hr R1) as [p2 [E2 R2]].
    exists p2. split; [|exact R2]. cbn [diffs]. rewrite E1. cbn [bind]. rewrite E2. reflexivity.
Qed.
End Pixel.

(** Writing a run of samples. *)
Lemma store_ok : forall vs o i, 0 <= i -> i + zlen vs <= zlen o -> exists o', store o i vs = Ok o' /\ zlen o' = zlen o /\
  (forall q, 0 <= q < zlen vs -> znth o' (i + q) = znth vs q) /\
  (forall q, 0 <= q -> ~ (i <= q < i + zlen vs) -> znth o' q = znth o q).
Proof.
  induction vs as [|v vs IH]; intros o i Hi HL.
  - exists o. split; [reflexivity|]. split; [reflexivity|]. change (zlen (@nil Z)) with 0. split; intros; [lia|reflexivity].
  - rewrite zlen_cons in *. pose proof (zlen_nonneg vs). cbn [store]. rewrite upd_ok by lia. cbn [bind].
    destruct (IH (upd_nat o (Z.to_nat i) v) (i + 1)) as [o' [E [L [A B]]]]; [lia|rewrite zlen_upd_nat; lia|].
    exists o'. split; [exact E|]. rewrite zlen_upd_nat in L. split; [exact L|]. split.
    + intros q Hq. destruct (Z.eq_dec q 0) as [->|N].
      * rewrite Z.add_0_r, znth_cons_0, B by lia. rewrite znth_upd_nat by lia. replace (i =? i) with true by lia. reflexivity.
      * rewrite znth_cons_S by lia. rewrite <- A by lia. f_equal. lia.
    + intros q Hq N. rewrite B by lia. rewrite znth_upd_nat by lia. replace (q =? i) with false by lia. reflexivity.
Qed.

Lemma combine_map2 : forall {A B C} (f : A -> B) (g : A -> C) l, combine (map f l) (map g l) = map (fun x => (f x, g x)) l.
Proof. induction l; cbn; congruence. Qed.
Lemma Forall2_map2 : forall {A B C} (R : B -> C -> Prop) (f : A -> B) (g : A -> C) l, (forall x, In x l -> R (f x) (g x)) -> Forall2 R (map f l) (map g l).
Proof. induction l; cbn; intros H; constructor; auto. Qed.
Lemma znth_map : forall f n i, 0 <= i < n -> znth (map f (zrange 0 n)) i = f i.
Proof.
  intros. unfold znth, zrange. rewrite map_map. rewrite Z.sub_0_r, nth_map_seq by lia. f_equal. lia.
Qed.
Lemma zlen_zrange : forall a b, zlen (zrange a b) = Z.max 0 (b - a).
Proof. intros. unfold zlen. rewrite zrange_length. lia. Qed.
Lemma i32add_ok : forall {M : Mode} a d, -2^31 <= a + d < 2^31 -> i32add a d = Ok (a + d).
Proof. intros. unfold i32add. apply arith_s_ok. exact H. Qed.

Section Comp.
Context {M : Mode}.
Variables (n : Z) (tab : Z -> hufftable) (enc : Z -> Z -> list bool) (fits : Z -> Z -> Prop).
Hypothesis Hn : 0 < n.
Hypothesis Hcodes : forall i, 0 <= i < n -> codes JPEG (tab i) (enc i) (fits i).
Hypothesis Hfits : forall i d, fits i d -> -32768 <= d <= 32767.
Notation ts := (map tab (zrange 0 n)).
Definition pbits (dd : Z -> Z) : list bool := flat_map (fun i => enc i (dd i)) (zrange 0 n).

Lemma diffs_ts : forall dd p rest, (forall i, 0 <= i < n -> fits i (dd i)) -> (32 <= length rest)%nat -> Repr JPEG p (pbits dd ++ rest) ->
  exists p', diffs JPEG ts p = Ok (map dd (zrange 0 n), p') /\ Repr JPEG p' rest.
Proof.
  intros dd p rest HF Hr R.
  apply (diffs_codes JPEG ts (map (fun i => (enc i, fits i)) (zrange 0 n))).
  - apply Forall2_map2. intros i Hi. apply zrange_In in Hi. cbn. apply Hcodes. lia.
  - apply Forall2_map2. intros i Hi. apply zrange_In in Hi. cbn. apply HF. lia.
  - exact Hr.
  - rewrite combine_map2, map_map. cbn [fst]. rewrite <- flat_map_concat_map. exact R.
Qed.

Lemma next_pixel_ok : forall out from to dd p rest,
  0 <= from -> from + n <= zlen out -> 0 <= to -> to + n <= zlen out ->
  (forall i, 0 <= i < n -> 0 <= znth out (from + i) < 65536) ->
  (forall i, 0 <= i < n -> fits i (dd i)) -> (32 <= length rest)%nat -> Repr JPEG p (pbits dd ++ rest) ->
  exists out' p', next_pixel ts out from to p = Ok (out', p') /\ Repr JPEG p' rest /\ zlen out' = zlen out /\
    (forall i, 0 <= i < n -> znth out' (to + i) = (znth out (from + i) + dd i) mod 65536) /\
    (forall q, 0 <= q -> ~ (to <= q < to + n) -> znth out' q = znth out q).
Proof.
  intros out from to dd p rest F1 F2 T1 T2 Hs HF Hr R. unfold next_pixel.
  rewrite zlen_map, zlen_zrange, Z.sub_0_r, Z.max_r by lia.
  rewrite (mapM_map _ (fun i => znth out (from + i))).
  2:{ intros i Hi. apply zrange_In in Hi. apply get_ok. lia. }
  cbn [bind]. destruct (diffs_ts dd p rest HF Hr R) as [p' [E R']]. rewrite E. cbn [bind].
  rewrite combine_map2.
  rewrite (mapM_map _ (fun '(a, d) => (a + d) mod 65536)).
  2:{ intros [a d] Hi. apply in_map_iff in Hi. destruct Hi as [i [Ei Hi]]. apply zrange_In in Hi. injection Ei as <- <-.
      pose proof (Hs i ltac:(lia)). pose proof (Hfits i _ (HF i ltac:(lia))). rewrite i32add_ok by lia. reflexivity. }
  cbn [bind]. rewrite map_map.
  destruct (store_ok (map (fun i => (znth out (from + i) + dd i) mod 65536) (zrange 0 n)) out to) as [o' [E' [L [A B]]]]; [lia| |].
  { rewrite zlen_map, zlen_zrange. lia. }
  rewrite E'. cbn [bind]. exists o', p'. split; [reflexivity|]. split; [exact R'|]. split; [exact L|].
  rewrite zlen_map, zlen_zrange, Z.sub_0_r, Z.max_r in A, B by lia. split; [|exact B].
  intros i Hi. rewrite A by lia. apply (znth_map (fun i => (znth out (from + i) + dd i) mod 65536)). lia.
Qed.

Lemma first_pixel_ok : forall m a base out pos dd p rest,
  a + Z.of_nat m = n -> 0 <= a -> 0 <= base < 65536 -> 0 <= pos -> pos + Z.of_nat m <= zlen out ->
  (forall i, 0 <= i < n -> fits i (dd i)) -> (32 <= length rest)%nat ->
  Repr JPEG p (flat_map (fun i => enc i (dd i)) (zrange a n) ++ rest) ->
  exists out' p', first_pixel (map tab (zrange a n)) base out pos p = Ok (out', p') /\ Repr JPEG p' rest /\ zlen out' = zlen out /\
    (forall i, 0 <= i < Z.of_nat m -> znth out' (pos + i) = (base + dd (a + i)) mod 65536) /\
    (forall q, 0 <= q -> ~ (pos <= q < pos + Z.of_nat m) -> znth out' q = znth out q).
Proof.
  induction m as [|m IH]; intros a base out pos dd p rest Ha H0 Hb Hp HL HF Hr R.
  - rewrite zrange_empty in * by lia. exists out, p. split; [reflexivity|]. split; [exact R|]. split; [reflexivity|]. split; intros; [lia|reflexivity].
  - rewrite zrange_cons in * by lia. cbn [map flat_map first_pixel] in *. rewrite <- app_assoc in R.
    destruct (Hcodes a ltac:(lia) (dd a) p (flat_map (fun i => enc i (dd i)) (zrange (a + 1) n) ++ rest) (HF a ltac:(lia)) ltac:(rewrite app_length; lia) R) as [p1 [E1 R1]].
    rewrite E1. cbn [bind]. pose proof (Hfits a _ (HF a ltac:(lia))). rewrite i32add_ok by lia. cbn [bind].
    rewrite upd_ok by lia. cbn [bind].
    destruct (IH (a + 1) base (upd_nat out (Z.to_nat pos) (as_u16 (base + dd a))) (pos + 1) dd p1 rest) as [o' [p' [E [R' [L [A B]]]]]];
      try assumption; try lia.
    { rewrite zlen_upd_nat. lia. }
    rewrite zlen_upd_nat in L. exists o', p'. split; [exact E|]. split; [exact R'|]. split; [exact L|]. split.
    + intros i Hi. destruct (Z.eq_dec i 0) as [->|N].
      * rewrite Z.add_0_r, B by lia. rewrite znth_upd_nat by lia. replace (pos =? pos) with true by lia. rewrite Z.add_0_r. reflexivity.
      * replace (pos + i) with (pos + 1 + (i - 1)) by lia. rewrite A by lia. do 3 f_equal. lia.
    + intros q Hq N. rewrite B by lia. rewrite znth_upd_nat by lia. replace (q =? pos) with false by lia. reflexivity.
Qed.
End Comp.
