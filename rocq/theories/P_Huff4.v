(** Proofs about Huffman decoding: the 13-bit table. *)
From Coq Require Import String ZArith List Bool Lia ZifyBool ZifyNat.
From Verif Require Import Base Pumps Huffman Spec_Bits Spec_Huffman P_Base P_Bits P_Pumps P_Huff1 P_Huff2 P_Huff3.
Import ListNotations.
Local Open Scope Z_scope.
Ltac Zify.zify_post_hook ::= Z.div_mod_to_equations.

Lemma Ok_inj : forall {A} (a b : A), Ok a = Ok b -> a = b.
Proof. intros A a b E. injection E as E. exact E. Qed.
Lemma nth_zbits : forall n v i, (i < n)%nat -> nth i (zbits n v) false = Z.testbit v (Z.of_nat (n - 1 - i)).
Proof.
  induction n; intros v i Hi; [lia|]. destruct i; cbn [zbits nth]; [f_equal; lia|]. rewrite IHn by lia. f_equal. lia.
Qed.
Lemma land_1_testbit : forall v s, 0 <= s -> Z.land (v / 2 ^ s) 1 = Z.b2z (Z.testbit v s).
Proof.
  intros v s Hs. change 1 with (2 ^ 1 - 1) at 1. rewrite land_ones_mod by lia. change (2 ^ 1) with 2.
  rewrite Z.testbit_spec' by lia. reflexivity.
Qed.
Lemma difference_range : forall n v, (n <= 15)%nat -> 0 <= v < 2 ^ Z.of_nat n -> -32768 < difference n v < 32768.
Proof.
  intros n v Hn Hv. unfold difference. destruct (n =? 0)%nat eqn:E; [lia|].
  destruct (pow_range n ltac:(lia)) as [P1 P2]. destruct (_ <=? v); lia.
Qed.

Lemma mapM_all : forall {A B} (f : A -> res B) xs, (forall x, In x xs -> exists y, f x = Ok y) -> exists ys, mapM f xs = Ok ys.
Proof.
  induction xs as [|x xs IH]; intros H; [exists []; reflexivity|].
  destruct (H x (or_introl eq_refl)) as [y Ey]. destruct IH as [ys Eys]; [intros; apply H; right; assumption|].
  exists (y :: ys). cbn [mapM]. rewrite Ey. cbn [bind]. rewrite Eys. reflexivity.
Qed.
Lemma mapM_get : forall {A B} (f : A -> res B) xs ys (i : nat) x, mapM f xs = Ok ys -> nth_error xs i = Some x ->
  exists y, nth_error ys i = Some y /\ f x = Ok y.
Proof.
  induction xs as [|a xs IH]; intros ys i x E H; [destruct i; discriminate|].
  cbn [mapM] in E. inv_bind E. inv_bind E. injection E as <-. destruct i.
  - injection H as <-. eexists. split; [reflexivity|eassumption].
  - cbn [nth_error] in *. eapply IH; eassumption.
Qed.
Lemma mapM_zrange_get : forall {B} (f : Z -> res B) N ys i, mapM f (zrange 0 N) = Ok ys -> 0 <= i < N ->
  exists v, get ys i = Ok v /\ f i = Ok v.
Proof.
  intros B f N ys i E Hi.
  assert (HN : nth_error (zrange 0 N) (Z.to_nat i) = Some i).
  { rewrite nth_error_nth' with (d := 0) by (rewrite zrange_length; lia). rewrite zrange_nth by lia. f_equal. lia. }
  destruct (mapM_get _ _ _ _ _ E HN) as [y [E1 E2]]. exists y. split; [|assumption].
  assert (L : zlen ys = N) by (unfold zlen; rewrite (mapM_length _ _ _ E), zrange_length; lia).
  unfold get. replace ((0 <=? i) && (i <? zlen ys)) with true by lia. rewrite E1. reflexivity.
Qed.

Section Table.
Variable bits : list Z.
Hypothesis Hlen : zlen bits = 17.
Hypothesis Hpos : Forall (fun c => 0 <= c) bits.
Hypothesis Hkraft : En bits 16 <= 2 ^ 16.
Hypothesis Hcount : Fn bits 16 <= 256.
Notation cn := (cn bits).
Notation Fn := (Fn bits).
Notation En := (En bits).
Notation hit := (hit bits).
Variable vals : list Z.
Hypothesis Hvals : zlen vals = 256.
Hypothesis Hbytes : bytes vals.
Hypothesis Htail : forall q, Fn 16 <= q -> znth vals q = 0.
Hypothesis Hsyms : forall q, znth vals q <= 16.
Variable M : Mode.
Variable t : hufftable.
Hypothesis Ht : table_ok bits vals t.
Hypothesis Hprec : 0 <= hprec t <= 16.
Notation reachable := (reachable bits t).

(** ** Entries *)
Lemma bigtable_eq : forall u, huff_bigtable u = mapM (big_entry u) (zrange 0 8192).
Proof. intros u. unfold huff_bigtable. exact eq_refl. Qed.
Lemma En_S : forall n, En (S n) = 2 * En n + cn (S n).
Proof. reflexivity. Qed.
Lemma Fn_S : forall n, Fn (S n) = Fn n + cn (S n).
Proof. reflexivity. Qed.
Lemma big_step : forall W l, length W = 16%nat -> (l < 16)%nat ->
  exists b, shr_u 16 (number W) (15 - Z.of_nat l) = Ok b /\ Z.land b 1 = Z.b2z (nth l W false).
Proof.
  intros W l HW Hl. rewrite shr_u_ok by lia. eexists. split; [reflexivity|].
  rewrite land_1_testbit by lia. f_equal. rewrite <- (zbits_number W) at 2. rewrite HW, nth_zbits by assumption. f_equal. lia.
Qed.
Lemma big_walk_hit : forall fuel W n i l, length W = 16%nat -> hit W n i -> (l <= n)%nat -> (n - l < fuel)%nat ->
  big_walk fuel (hmax t) (number W) (number (firstn (S l) W)) (Z.of_nat (S l)) =
  Ok (number (firstn (S n) W), Z.of_nat (S n)).
Proof.
  induction fuel; intros W n i l HW Hh Hl Hf; [lia|]. cbn [big_walk].
  pose proof Hh as Hh0. destruct Hh as [Hn [Hb [Hi Hc]]].
  pose proof (number_range (firstn (S l) W)) as R0. rewrite firstn_length_le in R0 by lia.
  assert (Hlow : 2 * En l <= number (firstn (S l) W)).
  { pose proof (hit_sep bits Hpos W n i l Hh0 Hl) as S0. rewrite number_firstn_S by lia.
    destruct (nth l W false); cbn [Z.b2z]; lia. }
  destruct (max_test bits Hpos vals t Ht l (number (firstn (S l) W)) ltac:(lia) ltac:(lia) Hlow) as [m [Em Ec]].
  rewrite Em. cbn [bind]. rewrite Ec.
  destruct (Nat.eq_dec l n) as [->|D].
  - rewrite Hc. change (En (S n)) with (2 * En n + cn (S n)).
    replace (2 * En n + cn (S n) <=? 2 * En n + i) with false by lia. reflexivity.
  - pose proof (hit_sep bits Hpos W n i (S l) Hh0 ltac:(lia)) as S1.
    replace ((En (S l) <=? number (firstn (S l) W)) && (Z.of_nat (S l) <? 16)) with true by lia.
    destruct (big_step W (S l) HW ltac:(lia)) as [b [Eb Lb]]. rewrite Eb. cbn [bind]. rewrite Lb.
    assert (E2 : Z.lor (Z.shiftl (number (firstn (S l) W)) 1) (Z.b2z (nth (S l) W false)) = number (firstn (S (S l)) W)).
    { rewrite (number_firstn_S (S l)) by lia. rewrite lor_shiftl_add by (try lia; destruct (nth (S l) W false); cbn; lia).
      change (2 ^ 1) with 2. lia. }
    rewrite E2. replace (Z.of_nat (S l) + 1) with (Z.of_nat (S (S l))) by lia.
    apply (IHfuel W n i (S l)); try assumption; lia.
Qed.
Lemma big_walk_miss : forall fuel W l, length W = 16%nat -> (forall n i, (n < 16)%nat -> ~ hit W n i) ->
  (l <= 15)%nat -> (15 - l < fuel)%nat ->
  big_walk fuel (hmax t) (number W) (number (firstn (S l) W)) (Z.of_nat (S l)) = Ok (number W, 16).
Proof.
  induction fuel; intros W l HW N Hl Hf; [lia|]. cbn [big_walk].
  assert (Hlow : En l <= number (firstn l W)) by (apply (no_hit bits); [lia|lia|intros n i Hn; apply N; lia]).
  assert (Hlow1 : En (S l) <= number (firstn (S l) W)) by (apply (no_hit bits); [lia|lia|intros n i Hn; apply N; lia]).
  assert (H2 : 2 * En l <= number (firstn (S l) W)) by (rewrite number_firstn_S by lia; destruct (nth l W false); cbn [Z.b2z]; lia).
  pose proof (number_range (firstn (S l) W)) as R0.
  destruct (max_test bits Hpos vals t Ht l (number (firstn (S l) W)) ltac:(lia) ltac:(lia) H2) as [m [Em Ec]].
  rewrite Em. cbn [bind]. rewrite Ec. replace (En (S l) <=? number (firstn (S l) W)) with true by lia. cbn [andb].
  destruct (Nat.eq_dec l 15) as [->|D].
  - change (Z.of_nat 16 <? 16) with false. cbv iota. rewrite firstn_all2 by lia. reflexivity.
  - replace (Z.of_nat (S l) <? 16) with true by lia.
    destruct (big_step W (S l) HW ltac:(lia)) as [b [Eb Lb]]. rewrite Eb. cbn [bind]. rewrite Lb.
    assert (E2 : Z.lor (Z.shiftl (number (firstn (S l) W)) 1) (Z.b2z (nth (S l) W false)) = number (firstn (S (S l)) W)).
    { rewrite (number_firstn_S (S l)) by lia. rewrite lor_shiftl_add by (try lia; destruct (nth (S l) W false); cbn; lia).
      change (2 ^ 1) with 2. lia. }
    rewrite E2. replace (Z.of_nat (S l) + 1) with (Z.of_nat (S (S l))) by lia.
    apply IHfuel; try assumption; lia.
Qed.

Lemma lor_low8 : forall x l, 0 <= l < 256 -> Z.lor (256 * x) l = 256 * x + l.
Proof. intros x l Hl. rewrite Z.mul_comm. change 256 with (2 ^ 8). apply lor_mul_add; [lia|assumption]. Qed.

Lemma big_value_ok : forall W dng rv (l : nat), length W = 16%nat -> 0 <= rv <= 16 -> (1 <= l <= 16)%nat ->
  big_value dng (number W) rv (Z.of_nat l) =
  Ok (if rv =? 16 then 256 * -32768 + (if dng then 16 + Z.of_nat l else Z.of_nat l)
      else if 13 <? rv + Z.of_nat l then 255
      else 256 * difference (Z.to_nat rv) (number (firstn (Z.to_nat rv) (skipn l W))) + (Z.of_nat l + rv)).
Proof.
  intros W dng rv l HW Hrv Hl. unfold big_value.
  destruct (rv =? 16) eqn:E16.
  - change (- Z.shiftl 32768 8) with (256 * -32768). f_equal. destruct dng; apply lor_low8; lia.
  - destruct (13 <? rv + Z.of_nat l) eqn:E13; [reflexivity|].
    destruct (rv =? 0) eqn:E0; cbn [negb].
    + replace (Z.to_nat rv) with 0%nat by lia. cbn [firstn number difference Nat.eqb]. f_equal. lia.
    + set (n := Z.to_nat rv). assert (Hn : Z.of_nat n = rv) by (unfold n; lia).
      destruct (pow_range n ltac:(lia)) as [P1 P2]. rewrite Hn in *.
      rewrite shr_u_ok by lia. cbn [bind]. rewrite shl_u_ok by (change (2 ^ 16) with 65536; lia). cbn [bind].
      unfold u16sub. rewrite arith_u_ok by (change (2 ^ 16) with 65536; lia). cbn [bind].
      rewrite Z.mul_1_l. rewrite land_ones_mod by lia.
      assert (EX : (number W / 2 ^ (16 - Z.of_nat l - rv)) mod 2 ^ rv = number (firstn n (skipn l W))).
      { rewrite <- (firstn_skipn l W) at 1.
        rewrite <- (firstn_skipn n (skipn l W)) at 1. rewrite !number_app.
        rewrite app_length, !skipn_length, firstn_length_le by (rewrite skipn_length; lia). rewrite HW.
        set (b := number (firstn n (skipn l W))). set (c := number (skipn n (skipn l W))). set (a := number (firstn l W)).
        pose proof (number_range (skipn n (skipn l W))) as Rc. fold c in Rc. rewrite !skipn_length, HW in Rc.
        pose proof (number_range (firstn n (skipn l W))) as Rb. fold b in Rb.
        rewrite firstn_length_le in Rb by (rewrite skipn_length; lia).
        replace (n + (16 - l - n))%nat with (16 - l)%nat by lia.
        replace (Z.of_nat (16 - l)) with (rv + Z.of_nat (16 - l - n)) by lia.
        rewrite Z.pow_add_r by lia. replace (16 - Z.of_nat l - rv) with (Z.of_nat (16 - l - n)) by lia.
        set (q := 2 ^ Z.of_nat (16 - l - n)) in *. assert (0 < q) by apply pow2_pos_nat.
        replace (a * (2 ^ rv * q) + (b * q + c)) with ((a * 2 ^ rv + b) * q + c) by ring.
        rewrite Z.div_add_l, (Z.div_small c) by lia. rewrite Z.add_0_r.
        rewrite Z.add_comm, Z.mod_add by lia. rewrite Hn in Rb. apply Z.mod_small. assumption. }
      rewrite EX. set (x := number (firstn n (skipn l W))) in *.
      assert (Rx : 0 <= x < 2 ^ rv).
      { pose proof (number_range (firstn n (skipn l W))) as Rb. fold x in Rb.
        rewrite firstn_length_le in Rb by (rewrite skipn_length; lia). rewrite Hn in Rb. assumption. }
      rewrite shl_i32_one by lia. cbn [bind]. rewrite top_bit by lia.
      unfold difference. replace (n =? 0)%nat with false by lia. rewrite Hn.
      destruct (2 ^ (rv - 1) <=? x) eqn:Eb; cbn [negb].
      * cbn [bind]. f_equal. rewrite Z.shiftl_mul_pow2 by lia. change (2 ^ 8) with 256.
        rewrite as_i32_small by (change (2 ^ 31) with 2147483648; lia).
        replace (x * 256) with (256 * x) by lia. apply lor_low8. lia.
      * rewrite shl_i32_one by lia. cbn [bind]. unfold i32sub.
        rewrite arith_s_ok by (change (2 ^ (32 - 1)) with 2147483648; lia). cbn [bind].
        rewrite arith_s_ok by (change (2 ^ (32 - 1)) with 2147483648; lia). cbn [bind].
        f_equal. rewrite Z.shiftl_mul_pow2 by lia. change (2 ^ 8) with 256.
        assert (as_i32 ((x - (2 ^ rv - 1)) * 256) = (x - (2 ^ rv - 1)) * 256) as ->.
        { unfold as_i32, swrap. change (2 ^ (32 - 1)) with 2147483648. change (2 ^ 32) with 4294967296. rewrite Z.mod_small; lia. }
        replace ((x - (2 ^ rv - 1)) * 256) with (256 * (x - (2 ^ rv - 1))) by lia. apply lor_low8. lia.
Qed.

Definition window (i : Z) : list bool := zbits 13 i ++ [false; false; false].
Lemma window_length : forall i, length (window i) = 16%nat.
Proof. intros. unfold window. rewrite app_length, zbits_length. reflexivity. Qed.
Lemma window_number : forall i, 0 <= i < 8192 -> number (window i) = 8 * i.
Proof.
  intros i Hi. unfold window. rewrite number_app, number_zbits. rewrite Z.mod_small by (change (2 ^ Z.of_nat 13) with 8192; lia).
  cbn [length number]. change (2 ^ Z.of_nat 3) with 8. cbn [Z.b2z]. lia.
Qed.

Lemma big_entry_cases : forall i, 0 <= i < 8192 ->
  (exists n j, hit (window i) n j /\ reachable n /\
     big_entry t i = big_value (hdng t) (number (window i)) (znth vals (Fn n + j)) (Z.of_nat (S n))) \/
  ((forall n j, hit (window i) n j -> ~ reachable n) /\
   (big_entry t i = Ok 255 \/
    (big_entry t i = Panic /\ 16 <= hprec t /\ 0 < cn 16 /\ Fn 15 <> 255 /\ En 16 <= 8 * i /\ 256 <= Fn 16 + 8 * i - En 16))).
Proof.
  intros i Hi. unfold big_entry. set (W := window i).
  assert (HW : length W = 16%nat) by apply window_length.
  assert (EI : as_u16 (Z.shiftl i 3) = number W).
  { unfold W. rewrite window_number by assumption. unfold as_u16. rewrite Z.shiftl_mul_pow2 by lia.
    change (2 ^ 3) with 8. change (2 ^ 16) with 65536. rewrite Z.mod_small; lia. }
  rewrite EI.
  assert (EC : Z.shiftr (number W) 8 = number (firstn 8 W)).
  { rewrite (number_firstn 8 16) by lia. rewrite (firstn_all2 (n := 16)) by lia.
    rewrite Z.shiftr_div_pow2 by lia. reflexivity. }
  rewrite EC.
  destruct (nb_lookup bits Hpos vals t Ht W ltac:(lia)) as [v [Ev Hv]]. rewrite Ev. cbn [bind].
  destruct Hv as [[n [j [Hn [Hh E8]]]]|[E0 Hno]].
  - left. exists n, j. split; [assumption|]. split; [left; assumption|].
    pose proof Hh as [A [_ [B _]]].
    destruct (entry8_parts bits Hpos Hcount vals Hvals Hbytes t Ht n j Hn B) as [P1 P2]. rewrite E8, P1, P2.
    replace (0 <? Z.of_nat (S n)) with true by lia.
    destruct (valptr_hit bits Hpos Hcount vals Hvals t Ht n j A B) as [_ [_ [_ [C D]]]].
    pose proof (znth_Forall byte vals (Fn n + j) Hbytes ltac:(lia)) as Hb. unfold byte in Hb.
    rewrite as_i32_small by (change (2 ^ 31) with 2147483648; lia). reflexivity.
  - rewrite E0. change (Z.land 0 15) with 0. change (0 <? 0) with false. cbv iota.
    destruct (hit_dec bits W 16 ltac:(lia) ltac:(lia)) as [[n [j [Hn Hh]]]|N].
    + assert (Hn8 : (8 <= n)%nat) by (destruct (Nat.le_gt_cases 8 n); [assumption|exfalso; apply (Hno n j); assumption]).
      pose proof (big_walk_hit 10 W n j 7 HW Hh ltac:(lia) ltac:(lia)) as EW. change (Z.of_nat 8) with 8 in EW.
      rewrite EW. cbn [bind]. pose proof Hh as [A [_ [B C]]].
      destruct (valptr_hit bits Hpos Hcount vals Hvals t Ht n j A B) as [V1 [V2 [V3 [V4 V5]]]].
      rewrite as_u32_small by (change (2 ^ 32) with 4294967296; lia).
      destruct (hprec t <? Z.of_nat (S n)) eqn:Ep.
      { right. split; [|left; reflexivity]. intros n' j' Hh' Hr. destruct (hit_unique bits Hpos W _ _ _ _ Hh Hh') as [<- <-].
        destruct Hr; lia. }
      rewrite V1. cbn [bind]. destruct (Fn n =? 255) eqn:E255.
      { right. split; [|left; reflexivity]. intros n' j' Hh' Hr. destruct (hit_unique bits Hpos W _ _ _ _ Hh Hh') as [<- <-].
        destruct Hr; lia. }
      left. exists n, j. split; [assumption|]. split; [right; lia|].
      rewrite V2. cbn [bind]. rewrite C.
      replace (2 * En n + j - 2 * En n) with j by lia.
      pose proof (znth_Forall byte vals (Fn n + j) Hbytes ltac:(lia)) as Hb. unfold byte in Hb.
      rewrite !as_u64_small by (change (2 ^ 64) with 18446744073709551616; lia).
      unfold uadd. rewrite arith_u_ok by (change (2 ^ 64) with 18446744073709551616; lia). cbn [bind].
      rewrite V3. cbn [bind]. rewrite as_i32_small by (change (2 ^ 31) with 2147483648; lia). reflexivity.
    + right. split; [intros n j Hh; exfalso; apply (N n j); [destruct Hh; assumption|assumption]|].
      pose proof (big_walk_miss 10 W 7 HW N ltac:(lia) ltac:(lia)) as EW. change (Z.of_nat 8) with 8 in EW.
      rewrite EW. cbn [bind]. rewrite as_u32_small by (change (2 ^ 32) with 4294967296; lia).
      destruct (hprec t <? 16) eqn:Ep; [left; reflexivity|].
      rewrite get_ok by (rewrite (to_vp _ _ _ Ht); lia). cbn [bind].
      destruct (to_ptr _ _ _ Ht 15%nat ltac:(lia)) as [P1 P2]. change (Z.of_nat 16) with 16 in *.
      pose proof (cn_pos bits Hpos 16).
      destruct (Z_lt_ge_dec 0 (cn 16)) as [C|C].
      2: { destruct (P2 ltac:(lia)) as [Q _]. rewrite Q. left. reflexivity. }
      destruct (P1 C) as [Q1 [Q2 _]]. rewrite Q1. destruct (Fn 15 =? 255) eqn:E255; [left; reflexivity|].
      rewrite get_ok by (rewrite (to_mn _ _ _ Ht); lia). rewrite Q2. cbn [bind].
      pose proof (no_hit bits W 16 ltac:(lia) ltac:(lia) N) as HN.
      rewrite firstn_all2 in HN by lia.
      assert (HWn : number W = 8 * i) by (apply window_number; assumption). rewrite HWn in *.
      pose proof (En_S 15) as E16.
      pose proof (Fn_S 15) as F16.
      pose proof (Fn_pos bits Hpos 15). pose proof (En_pos bits Hpos 15).
      rewrite !as_u64_small by (change (2 ^ 64) with 18446744073709551616; lia).
      unfold uadd. rewrite arith_u_ok by (change (2 ^ 64) with 18446744073709551616; lia). cbn [bind].
      rewrite (to_val _ _ _ Ht).
      destruct (Z_lt_ge_dec (Fn 15 + (8 * i - 2 * En 15)) 256) as [L|L].
      * rewrite get_ok by lia. rewrite Htail by lia. left. reflexivity.
      * rewrite get_oob by lia. right. split; [reflexivity|]. lia.
Qed.

(** The table is built unless some window runs past the symbols. *)
Lemma bigtable_built : (16 <= hprec t -> 0 < cn 16 -> 65528 < En 16 \/ Fn 16 + 65528 - En 16 <= 255) ->
  exists big, huff_bigtable t = Ok big.
Proof.
  intros H. rewrite bigtable_eq. apply mapM_all. intros i Hi. apply zrange_In in Hi.
  destruct (big_entry_cases i Hi) as [[n [j [Hh [Hr E]]]]|[_ [E|[E [A [B [C [D F]]]]]]]].
  - rewrite E. rewrite big_value_ok; [eexists; reflexivity|apply window_length| |destruct Hh; lia].
    destruct Hh as [A [_ [B _]]]. destruct (valptr_hit bits Hpos Hcount vals Hvals t Ht n j A B) as [_ [_ [_ [C D]]]].
    pose proof (znth_Forall byte vals (Fn n + j) Hbytes ltac:(lia)) as Hb. unfold byte in Hb.
    pose proof (Hsyms (Fn n + j)). lia.
  - rewrite E. eexists; reflexivity.
  - exfalso. specialize (H A B). lia.
Qed.

(** ** Decoding a difference *)
Definition used (n : nat) (s : Z) : nat := (S n + (if (s =? 16)%Z then (if hdng t then 16 else 0) else Z.to_nat s))%nat.
Definition meaning (bs : list bool) (n : nat) (s : Z) : Z :=
  if s =? 16 then -32768 else difference (Z.to_nat s) (number (firstn (Z.to_nat s) (skipn (S n) bs))).

Lemma sym_range : forall n i, (n < 16)%nat -> 0 <= i < cn (S n) -> 0 <= znth vals (Fn n + i) <= 16.
Proof.
  intros n i A B. destruct (valptr_hit bits Hpos Hcount vals Hvals t Ht n i A B) as [_ [_ [_ [C D]]]].
  pose proof (znth_Forall byte vals (Fn n + i) Hbytes ltac:(lia)) as Hb. unfold byte in Hb.
  pose proof (Hsyms (Fn n + i)). lia.
Qed.

Lemma slow_hit : forall k p bs n i, k <> LSB -> Repr k p bs -> (8 <= length bs)%nat -> hit bs n i -> reachable n ->
  (used n (znth vals (Fn n + i)) <= length bs)%nat -> (znth vals (Fn n + i) = 16 -> (S n + 16 <= length bs)%nat) ->
  exists p', huff_slow k t p = Ok (meaning bs n (znth vals (Fn n + i)), p') /\
             Repr k p' (skipn (used n (znth vals (Fn n + i))) bs).
Proof.
  intros k p bs n i Hk R H8 Hh Hr Hu H16. unfold huff_slow.
  destruct (huff_len_hit bits Hpos Hkraft Hcount vals Hvals Hbytes M t Ht k p bs n i Hk R H8 Hh Hr) as [p1 [E1 R1]].
  rewrite E1. cbn [bind]. pose proof Hh as [A [B [C D]]].
  pose proof (sym_range n i A C) as Hs. set (s := znth vals (Fn n + i)) in *. unfold used, meaning in *.
  destruct (s =? 16) eqn:Es.
  - replace s with 16 by lia.
    destruct (huff_diff_16 M t k p1 (skipn (S n) bs) Hk R1) as [p2 [E2 R2]]; [rewrite skipn_length; lia|].
    rewrite E2. exists p2. split; [reflexivity|]. rewrite skipn_skipn' in R2. assumption.
  - destruct (huff_diff_ok M t k p1 (skipn (S n) bs) (Z.to_nat s) Hk R1) as [p2 [E2 R2]]; [lia|rewrite skipn_length; lia|].
    rewrite Z2Nat.id in E2 by lia. rewrite E2. exists p2. split; [reflexivity|]. rewrite skipn_skipn' in R2. assumption.
Qed.

(** ** The shortcut *)
Hypothesis Hbig : exists t1, huff_bigtable t1 = Ok (hbig t) /\ table_ok bits vals t1 /\ hprec t1 = hprec t /\ hdng t1 = hdng t
  /\ (forall i, big_entry t1 i = big_entry t i).
Hypothesis Huse : huse_big t = true.
(** No word longer than 13 bits means category 16. *)
Hypothesis H13 : forall n i, (13 <= n)%nat -> (n < 16)%nat -> 0 <= i < cn (S n) -> znth vals (Fn n + i) <> 16.

Lemma window_firstn : forall bs, (13 <= length bs)%nat -> window (number (firstn 13 bs)) = firstn 13 bs ++ [false; false; false].
Proof.
  intros bs H. unfold window. f_equal. rewrite <- (zbits_number (firstn 13 bs)) at 2.
  rewrite firstn_length_le by assumption. reflexivity.
Qed.
Lemma window_hit : forall bs n i, (13 <= length bs)%nat -> (n < 13)%nat ->
  (hit (window (number (firstn 13 bs))) n i <-> hit bs n i).
Proof.
  intros bs n i H Hn. rewrite window_firstn by assumption.
  assert (E : firstn (S n) (firstn 13 bs ++ [false; false; false]) = firstn (S n) bs).
  { rewrite firstn_app, firstn_length_le by assumption. replace (S n - 13)%nat with 0%nat by lia.
    rewrite firstn_O, app_nil_r, firstn_firstn, Nat.min_l by lia. reflexivity. }
  split; intros Hh; eapply hit_prefix; try eassumption; try lia; try (symmetry; assumption); try assumption.
  rewrite app_length, firstn_length_le by assumption. cbn [length]. lia.
Qed.

Lemma mod256 : forall x l, 0 <= l < 256 -> Z.land (256 * x + l) 255 = l /\ Z.shiftr (256 * x + l) 8 = x.
Proof.
  intros x l H. change 255 with (2 ^ 8 - 1). rewrite land_ones_mod, Z.shiftr_div_pow2 by lia. change (2 ^ 8) with 256. lia.
Qed.

(** The shortcut either answers as the slow decoder, or defers to it. *)
Lemma fast_step : forall k p bs, k <> LSB -> Repr k p bs -> (13 <= length bs)%nat ->
  (hdng t = true -> forall n i, (n < 16)%nat -> 0 <= i < cn (S n) -> znth vals (Fn n + i) <> 16) ->
  (exists n i p', hit bs n i /\ reachable n /\ (used n (znth vals (Fn n + i)) <= 13)%nat /\
     huff_decode k t p = Ok (meaning bs n (znth vals (Fn n + i)), p') /\
     Repr k p' (skipn (used n (znth vals (Fn n + i))) bs)) \/
  (exists p', huff_decode k t p = huff_slow k t p' /\ Repr k p' bs).
Proof.
  intros k p bs Hk R HL Hd. unfold huff_decode. rewrite Huse.
  destruct (peek_ok k p bs 13 R ltac:(lia) HL) as [p1 [E1 [R1 N1]]]. change (Z.of_nat 13) with 13 in *.
  assert (EV : value_of k (firstn 13 bs) = number (firstn 13 bs)) by (destruct k; [congruence| | |]; reflexivity).
  rewrite EV in E1. rewrite E1. cbn [bind].
  pose proof (number_range (firstn 13 bs)) as NR. rewrite firstn_length_le in NR by assumption.
  change (2 ^ Z.of_nat 13) with 8192 in NR.
  destruct Hbig as [t1 [HB [Ht1 [Hp1 [Hdng1 Hent]]]]].
  assert (EG : exists v, get (hbig t) (number (firstn 13 bs)) = Ok v /\ big_entry t (number (firstn 13 bs)) = Ok v).
  { rewrite bigtable_eq in HB. destruct (mapM_zrange_get _ _ _ (number (firstn 13 bs)) HB NR) as [y [E2 E3]]. exists y.
    split; [assumption|rewrite <- Hent; assumption]. }
  destruct EG as [v [Ev Eb]]. rewrite Ev. cbn [bind].
  destruct (big_entry_cases (number (firstn 13 bs)) NR) as [[n [j [Hh [Hr E]]]]|[_ [E|[E _]]]].
  2: { rewrite E in Eb. apply Ok_inj in Eb; subst v. change (negb (Z.land 255 255 =? 255)) with false. cbv iota. right. exists p1. auto. }
  2: { rewrite E in Eb. discriminate. }
  pose proof Hh as [A [B [C D]]]. pose proof (sym_range n j A C) as Hs.
  rewrite E, big_value_ok in Eb by (first [apply window_length|lia]). apply Ok_inj in Eb.
  set (s := znth vals (Fn n + j)) in *.
  assert (Hdefer : v = 255 -> exists p', (if negb (Z.land v 255 =? 255) then p2 <- consume_bits k p1 (Z.land v 255);; Ok (Z.shiftr v 8, p2)
            else huff_slow k t p1) = huff_slow k t p' /\ Repr k p' bs).
  { intros ->. change (negb (Z.land 255 255 =? 255)) with false. cbv iota. exists p1. auto. }
  destruct (s =? 16) eqn:Es.
  - assert (n < 13)%nat by (destruct (Nat.le_gt_cases 13 n) as [L|L]; [exfalso; apply (H13 n j L A C); fold s; lia|assumption]).
    destruct (hdng t) eqn:Edng; [exfalso; apply (Hd eq_refl n j A C); fold s; lia|].
    left. exists n, j, (match consume_bits k p1 (Z.of_nat (S n)) with Ok p' => p' | _ => p1 end).
    destruct (mod256 (-32768) (Z.of_nat (S n)) ltac:(lia)) as [Q1 Q2]. rewrite <- Eb, Q1, Q2.
    replace (negb (Z.of_nat (S n) =? 255)) with true by lia.
    destruct (consume_ok k p1 bs (S n) R1 ltac:(lia)) as [p2 [E2 [R2 _]]]. rewrite E2. cbn [bind].
    fold s. unfold used, meaning. rewrite Es, Edng. split; [apply window_hit; [lia|lia|assumption]|]. split; [assumption|].
    split; [lia|]. split; [reflexivity|]. rewrite Nat.add_0_r. assumption.
  - destruct (13 <? s + Z.of_nat (S n)) eqn:E13; [right; apply Hdefer; lia|].
    assert (n < 13)%nat by lia.
    left. exists n, j, (match consume_bits k p1 (Z.of_nat (S n + Z.to_nat s)) with Ok p' => p' | _ => p1 end).
    set (d := difference (Z.to_nat s) (number (firstn (Z.to_nat s) (skipn (S n) (window (number (firstn 13 bs))))))) in *.
    destruct (mod256 d (Z.of_nat (S n) + s) ltac:(lia)) as [Q1 Q2]. rewrite <- Eb, Q1, Q2.
    replace (negb (Z.of_nat (S n) + s =? 255)) with true by lia.
    destruct (consume_ok k p1 bs (S n + Z.to_nat s) R1 ltac:(lia)) as [p2 [E2 [R2 _]]].
    replace (Z.of_nat (S n) + s) with (Z.of_nat (S n + Z.to_nat s)) by lia. rewrite E2. cbn [bind].
    fold s. unfold used, meaning. rewrite Es. split; [apply window_hit; [lia|lia|assumption]|]. split; [assumption|].
    split; [lia|]. split; [|assumption]. do 2 f_equal. unfold d. do 2 f_equal.
    rewrite window_firstn by assumption.
    rewrite skipn_app, firstn_app. rewrite skipn_length, firstn_length_le by assumption.
    replace (Z.to_nat s - (13 - S n))%nat with 0%nat by lia. rewrite firstn_O, app_nil_r.
    rewrite skipn_firstn_comm, firstn_firstn. f_equal. lia.
Qed.
End Table.
