(** Proofs about the first Sony format. *)
From Coq Require Import String ZArith List Bool Lia ZifyBool ZifyNat.
From Verif Require Import Base Bytes Pumps Arw Spec_Bits Spec_Pump Spec_Stream Spec_Image Spec_Huffman Spec_Ljpeg Spec_Sensor
  P_Base P_Bits P_Pumps P_Huff1 P_Huff2 P_Huff3 P_Huff4 P_Huff5 P_Huff6 P_Ljpeg1 P_Ljpeg2 P_Ljpeg6.
Import ListNotations.
Local Open Scope Z_scope.

Section Arw1.
Context {M : Mode}.

(** ** Code words *)
Lemma number_zeros : forall k l, number (repeat false k ++ l) = number l.
Proof. intros. rewrite number_app, number_repeat_false. lia. Qed.
Lemma lead : forall k l, (k + length l = 12)%nat -> leading_zeros (number (repeat false k ++ true :: l)) - 19 = Z.of_nat k.
Proof.
  intros k l H. rewrite number_zeros. cbn [number Z.b2z]. pose proof (number_range l) as R. unfold leading_zeros.
  set (v := 1 * 2 ^ Z.of_nat (length l) + number l). pose proof (pow2_pos_nat (length l)) as P.
  replace (v =? 0) with false by lia.
  assert (E : Z.log2 v = Z.of_nat (length l)) by (apply Z.log2_unique; [lia|]; rewrite Z.pow_succ_r by lia; lia).
  lia.
Qed.
Lemma len_ok : forall n p tail, (n <= 17)%nat -> (13 <= length tail)%nat -> Repr MSB p (arw1_prefix n ++ tail) ->
  exists p', arw1_len p = Ok (Z.of_nat n, p') /\ Repr MSB p' tail.
Proof.
  intros n p tail Hn Ht R. unfold arw1_len. change 2 with (Z.of_nat 2) at 1.
  destruct (get_bits_ok MSB p _ 2%nat R ltac:(lia) ltac:(rewrite app_length; lia)) as [p1 [E1 R1]]. rewrite E1. cbn [bind]. clear E1.
  destruct n as [|[|[|[|n]]]]; cbn [arw1_prefix app firstn skipn value_of] in *.
  - change (u32sub 4 (number [false; true])) with (@Ok Z 3). cbn [bind]. change (3 =? 3) with true. cbn iota. change 1 with (Z.of_nat 1) at 1.
    destruct (get_bits_ok MSB p1 _ 1%nat R1 ltac:(lia) ltac:(cbn; lia)) as [p2 [E2 R2]]. rewrite E2. cbn [bind].
    exists p2. split; [reflexivity|exact R2].
  - exists p1. split; [reflexivity|exact R1].
  - exists p1. split; [reflexivity|exact R1].
  - change (u32sub 4 (number [false; true])) with (@Ok Z 3). cbn [bind]. change (3 =? 3) with true. cbn iota. change 1 with (Z.of_nat 1) at 1.
    destruct (get_bits_ok MSB p1 _ 1%nat R1 ltac:(lia) ltac:(cbn; lia)) as [p2 [E2 R2]]. rewrite E2. cbn [bind].
    exists p2. split; [reflexivity|exact R2].
  - change (u32sub 4 (number [false; false])) with (@Ok Z 4). cbn [bind]. change (4 =? 3) with false. change (4 =? 4) with true. cbn iota.
    replace (S (S (S (S n))) - 4)%nat with n in R1 by lia.
    set (z := repeat false n) in *. set (one := if (S (S (S (S n))) <? 17)%nat then [true] else []) in *.
    assert (Lz : length z = n) by apply repeat_length.
    assert (L1 : length one = if (n <? 13)%nat then 1%nat else 0%nat) by (unfold one; destruct (S (S (S (S n))) <? 17)%nat eqn:A; destruct (n <? 13)%nat eqn:B; lia || reflexivity).
    change 13 with (Z.of_nat 13) at 1.
    destruct (peek_ok MSB p1 _ 13%nat R1 ltac:(lia) ltac:(rewrite !app_length; lia)) as [p2 [E2 [R2 _]]]. rewrite E2. cbn [bind value_of]. clear E2.
    set (v := number (firstn 13 ((z ++ one) ++ tail))).
    assert (V : leading_zeros v - 19 = Z.of_nat n).
    { unfold v. destruct (n <? 13)%nat eqn:B.
      - assert (O : one = [true]) by (unfold one; replace (S (S (S (S n))) <? 17)%nat with true by lia; reflexivity). rewrite O.
        rewrite <- app_assoc. rewrite firstn_app, Lz. rewrite firstn_all2 by lia. cbn [app].
        replace (13 - n)%nat with (S (12 - n)) by lia. cbn [firstn]. unfold z. apply lead. rewrite firstn_length. lia.
      - assert (N : n = 13%nat) by lia.
        assert (O : one = []) by (unfold one; replace (S (S (S (S n))) <? 17)%nat with false by lia; reflexivity). rewrite O, app_nil_r.
        rewrite firstn_app, Lz, firstn_all2 by lia. rewrite N, Nat.sub_diag, firstn_O, app_nil_r. unfold z. rewrite number_repeat_false. reflexivity. }
    unfold u32sub. rewrite arith_u_ok by (rewrite V; change (2^32) with 4294967296; lia). cbn [bind]. rewrite V.
    replace (Z.min 13 (Z.of_nat n + 1)) with (Z.of_nat (length (z ++ one))) by (rewrite app_length, Lz, L1; destruct (n <? 13)%nat eqn:B; lia).
    destruct (get_bits_ok MSB p2 _ (length (z ++ one)) R2) as [p3 [E3 R3]].
    { rewrite app_length, Lz, L1. destruct (n <? 13)%nat; lia. } { rewrite (app_length (z ++ one)). lia. }
    rewrite E3. cbn [bind]. exists p3. split; [f_equal; f_equal; lia|]. rewrite skipn_pre in R3. exact R3.
Qed.

(** ** One difference *)
Lemma i32sub_ok : forall a d, -2^31 <= a - d < 2^31 -> i32sub a d = Ok (a - d).
Proof. intros. unfold i32sub. apply arith_s_ok. exact H. Qed.
Definition arw1_next (p : pump) (sum : Z) : res (Z * pump) :=
  '(len, p) <- arw1_len p ;;
  '(diff, p) <- get_ibits MSB p len ;;
  sum <- arw1_sum len diff sum ;;
  Ok (sum, p).
Lemma next_ok : forall d p s tail, (category d <= 17)%nat -> (13 <= length tail)%nat -> - 2 ^ 30 <= s <= 2 ^ 30 -> - 2 ^ 30 <= s + d <= 2 ^ 30 ->
  Repr MSB p (arw1_code d ++ tail) -> exists p', arw1_next p s = Ok (s + d, p') /\ Repr MSB p' tail.
Proof.
  intros d p s tail Hc Ht Hs Hd R. unfold arw1_code in R. rewrite <- app_assoc in R. set (n := category d) in *.
  assert (Lb : length (binary n (extra d)) = n) by (rewrite binary_zbits, zbits_length; reflexivity).
  destruct (len_ok n p (binary n (extra d) ++ tail) Hc ltac:(rewrite app_length; lia) R) as [p1 [E1 R1]]. unfold arw1_next. rewrite E1. cbn [bind]. clear E1.
  unfold get_ibits. destruct (get_bits_ok MSB p1 _ n R1 ltac:(lia) ltac:(rewrite app_length; lia)) as [p2 [E2 R2]].
  rewrite E2. cbn [bind value_of]. clear E2. rewrite <- Lb in R2 at 1. rewrite skipn_pre in R2.
  destruct (difference_extra d) as [X1 X2]. fold n in X1, X2.
  assert (EV : number (firstn n (binary n (extra d) ++ tail)) = extra d).
  { rewrite <- Lb at 1. rewrite firstn_pre, binary_zbits, number_zbits, Z.mod_small by assumption. reflexivity. }
  rewrite EV. assert (B : 0 <= extra d < 2 ^ 17) by (pose proof (Z.pow_le_mono_r 2 (Z.of_nat n) 17 ltac:(lia) ltac:(lia)); lia).
  change (2 ^ 17) with 131072 in B. change (2 ^ 30) with 1073741824 in *.
  assert (EI : as_i32 (extra d) = extra d) by (unfold as_i32, swrap; change (2 ^ (32 - 1)) with 2147483648; change (2 ^ 32) with 4294967296; rewrite Z.mod_small; lia).
  rewrite EI. unfold arw1_sum. change (2 ^ 31) with 2147483648 in *.
  rewrite i32add_ok by (change (2 ^ 31) with 2147483648; lia). cbn [bind].
  exists p2. split; [|exact R2]. unfold difference in X2. destruct (n =? 0)%nat eqn:N0.
  - replace (0 <? Z.of_nat n) with false by lia. cbn [andb bind]. assert (extra d = 0) by (replace n with 0%nat in X1 by lia; cbn in X1; lia).
    f_equal. f_equal. lia.
  - replace (0 <? Z.of_nat n) with true by lia. cbn [andb]. rewrite Z.shiftl_1_l. rewrite top_bit by (assumption || lia).
    destruct (2 ^ (Z.of_nat n - 1) <=? extra d) eqn:T; cbn [negb bind].
    + f_equal. f_equal. lia.
    + rewrite Z.shiftl_1_l. assert (0 < 2 ^ Z.of_nat n <= 131072).
      { split; [apply pow2_pos_nat|]. apply (Z.pow_le_mono_r 2 (Z.of_nat n) 17); lia. }
      rewrite i32sub_ok by (change (2 ^ 31) with 2147483648; lia). cbn [bind]. f_equal. f_equal. lia.
Qed.

(** ** The order of the rows of a column *)
Definition arw1_step (width : Z) (rc : Z * Z) (st : pump * Z * list Z) : res (pump * Z * list Z) :=
  let '(p, sum, out) := st in
  '(sum, p) <- arw1_next p sum ;;
  out <- upd out (fst rc * width + snd rc) (as_u16 sum) ;;
  Ok (p, sum, out).
Inductive path (h : Z) : Z -> list Z -> Prop :=
| path_end : forall row, h < row -> path h row []
| path_step : forall row rows, row <= h -> path h ((if row =? h then 1 else row) + 2) rows -> path h row ((if row =? h then 1 else row) :: rows).
Lemma column_path : forall w h col row rows, path h row rows -> forall fuel p sum out, (length rows < fuel)%nat ->
  arw1_column fuel w h col row p sum out = rfold (arw1_step w) (map (fun r => (r, col)) rows) (p, sum, out).
Proof.
  intros w h col row rows P. induction P as [row H|row rows H P IH]; intros fuel p sum out Hf; (destruct fuel as [|fuel]; [cbn in Hf; lia|]); cbn [arw1_column].
  - replace (row <=? h) with false by lia. reflexivity.
  - replace (row <=? h) with true by lia. set (r := if row =? h then 1 else row) in *. cbn [map rfold]. unfold arw1_step at 1, arw1_next. cbn [fst snd].
    destruct (arw1_len p) as [[len p1]| | |]; cbn [bind]; try reflexivity.
    destruct (get_ibits MSB p1 len) as [[diff p2]| | |]; cbn [bind]; try reflexivity.
    destruct (arw1_sum len diff sum) as [s| | |]; cbn [bind]; try reflexivity.
    destruct (upd out (r * w + col) (as_u16 s)) as [o| | |]; cbn [bind]; try reflexivity.
    apply IH. cbn [length] in Hf. lia.
Qed.
Lemma odd_path : forall h m i, h = 2 * m -> 0 <= i <= m -> path h (2 * i + 1) (map (fun i => 2 * i + 1) (zrange i m)).
Proof.
  intros h m i Eh Hi. remember (Z.to_nat (m - i)) as k eqn:Ek. revert i Hi Ek. induction k; intros i Hi Ek.
  - rewrite (zrange_empty i m) by lia. constructor. lia.
  - rewrite (zrange_cons i m) by lia. cbn [map].
    assert (E : 2 * i + 1 = if 2 * i + 1 =? h then 1 else 2 * i + 1) by (replace (2 * i + 1 =? h) with false by lia; reflexivity).
    rewrite E at 2. constructor; [lia|]. rewrite <- E. replace (2 * i + 1 + 2) with (2 * (i + 1) + 1) by lia. apply IHk; lia.
Qed.
Lemma even_path : forall h m i, h = 2 * m -> 0 < m -> 0 <= i <= m -> path h (2 * i) (map (fun i => 2 * i) (zrange i m) ++ map (fun i => 2 * i + 1) (zrange 0 m)).
Proof.
  intros h m i Eh Hm Hi. remember (Z.to_nat (m - i)) as k eqn:Ek. revert i Hi Ek. induction k; intros i Hi Ek.
  - rewrite (zrange_empty i m) by lia. cbn [map app]. rewrite (zrange_cons 0 m) by lia. cbn [map].
    assert (E : 2 * 0 + 1 = if 2 * i =? h then 1 else 2 * i) by (replace (2 * i =? h) with true by lia; reflexivity).
    rewrite E. constructor; [lia|]. rewrite <- E. replace (2 * 0 + 1 + 2) with (2 * (0 + 1) + 1) by lia. apply (odd_path h m (0 + 1)); lia.
  - rewrite (zrange_cons i m) by lia. cbn [map app].
    assert (E : 2 * i = if 2 * i =? h then 1 else 2 * i) by (replace (2 * i =? h) with false by lia; reflexivity).
    rewrite E at 2. constructor; [lia|]. rewrite <- E. replace (2 * i + 2) with (2 * (i + 1)) by lia. apply IHk; lia.
Qed.
Lemma rfold_flat_map : forall {A B S} (f : B -> S -> res S) (g : A -> list B) l s, rfold f (flat_map g l) s = rfold (fun x => rfold f (g x)) l s.
Proof.
  intros A B S f g l. induction l; intros s; [reflexivity|]. cbn [flat_map rfold]. rewrite rfold_app. destruct (rfold f (g a) s); cbn [bind]; [apply IHl|reflexivity..].
Qed.
Lemma decode_order : forall buf w m, 0 < m ->
  decode_arw1 buf w (2 * m) = bind (rfold (arw1_step w) (arw1_order w (2 * m)) (pump_new buf, 0, zeros (w * (2 * m)))) (fun '(_, _, out) => Ok out).
Proof.
  intros buf w m Hm. unfold decode_arw1, arw1_order. rewrite rfold_flat_map, !upto_zrange. f_equal.
  apply rfold_ext. intros x [[p s] o] _. replace (2 * m / 2) with m by (rewrite Z.mul_comm, Z.div_mul; lia).
  rewrite (column_path w (2 * m) (w - 1 - x) 0 (map (fun i => 2 * i) (zrange 0 m) ++ map (fun i => 2 * i + 1) (zrange 0 m))).
  - rewrite map_app, !map_map. reflexivity.
  - apply (even_path (2 * m) m 0); lia.
  - rewrite app_length, !map_length, zrange_length. lia.
Qed.

(** ** All pixels *)
Lemma order_in : forall w m r c, In (r, c) (arw1_order w (2 * m)) <-> 0 <= r < 2 * m /\ 0 <= c < w.
Proof.
  intros w m r c. unfold arw1_order. rewrite in_flat_map, !upto_zrange. replace (2 * m / 2) with m by (rewrite Z.mul_comm, Z.div_mul; lia). split.
  - intros [x [Hx H]]. apply zrange_In in Hx. apply in_app_iff in H. rewrite !in_map_iff in H. destruct H as [[i [E H]]|[i [E H]]]; apply zrange_In in H; apply pair_equal_spec in E; lia.
  - intros [Hr Hc]. exists (w - 1 - c). rewrite zrange_In, in_app_iff, !in_map_iff. split; [lia|].
    destruct (Z.Even_or_Odd r) as [[i Hi]|[i Hi]]; [left|right]; exists i; rewrite zrange_In; (split; [f_equal; lia|lia]).
Qed.
Lemma steps_ok : forall w h val todo done p s out rest, 0 < w ->
  (forall r c, In (r, c) (done ++ todo) -> 0 <= r < h /\ 0 <= c < w /\ Z.abs (val r c) <= 2 ^ 30) ->
  (13 <= length rest)%nat -> Z.abs s <= 2 ^ 30 ->
  (let ds := differences s (map (fun rc => val (fst rc) (snd rc)) todo) in
   Forall (fun d => (category d <= 17)%nat) ds /\ Repr MSB p (flat_map arw1_code ds ++ rest)) ->
  zlen out = w * h -> (forall r c, In (r, c) done -> znth out (r * w + c) = val r c mod 65536) ->
  exists p' s' out', rfold (arw1_step w) todo (p, s, out) = Ok (p', s', out') /\ zlen out' = w * h /\
    forall r c, In (r, c) (done ++ todo) -> znth out' (r * w + c) = val r c mod 65536.
Proof.
  intros w h val todo. induction todo as [|[r c] todo IH]; intros done p s out rest Hw Hin Hr Hs [HF R] HL Hd.
  - exists p, s, out. split; [reflexivity|]. split; [exact HL|]. rewrite app_nil_r. exact Hd.
  - cbn [map differences flat_map fst snd rfold] in *. rewrite <- app_assoc in R.
    destruct (Hin r c) as [Br [Bc Bv]]; [apply in_app_iff; right; left; reflexivity|].
    pose proof (Forall_inv HF) as HF1. cbn beta in HF1. pose proof (Forall_inv_tail HF) as HF2.
    set (tail := flat_map arw1_code _ ++ rest) in R.
    destruct (next_ok (val r c - s) p s tail HF1) as [p1 [E1 R1]]; [unfold tail; rewrite app_length; lia|lia|lia|exact R|].
    unfold arw1_step at 1. rewrite E1. cbn [bind fst snd]. clear E1. replace (s + (val r c - s)) with (val r c) by lia.
    assert (Hi : 0 <= r * w + c < zlen out) by (rewrite HL; nia).
    destruct (upd_exists out (r * w + c) (as_u16 (val r c)) Hi) as [out1 E1]. rewrite E1. cbn [bind].
    destruct (IH (done ++ [(r, c)]) p1 (val r c) out1 rest) as [p2 [s2 [out2 [E2 [L2 D2]]]]].
    + exact Hw.
    + rewrite <- app_assoc. exact Hin.
    + exact Hr.
    + exact Bv.
    + split; [exact HF2|exact R1].
    + rewrite (zlen_upd _ _ _ _ E1). exact HL.
    + intros r' c' H. apply in_app_iff in H.
      assert (In (r', c') (done ++ (r, c) :: todo)) as H' by (destruct H as [H|[H|[]]]; apply in_app_iff; [left; exact H|inversion H; subst; right; left; reflexivity]).
      destruct (Hin r' c' H') as [Br' [Bc' _]]. rewrite (znth_upd _ _ _ _ (r' * w + c') E1) by nia.
      destruct (r' * w + c' =? r * w + c) eqn:Q.
      * destruct (cell_inj w c' c r' r) as [-> ->]; [lia|lia|lia|]. reflexivity.
      * destruct H as [H|[H|[]]]; [apply Hd; exact H|]. inversion H; subst; lia.
    + exists p2, s2, out2. split; [exact E2|]. split; [exact L2|]. intros r' c' H. apply D2. rewrite <- app_assoc. exact H.
Qed.

Theorem arw1_ok : forall buf pad w h val rest, bytes buf -> readable MSB buf -> 0 < w -> 0 < h -> Z.even h = true ->
  (forall r c, 0 <= r < h -> 0 <= c < w -> Z.abs (val r c) <= 2 ^ 30) ->
  let ds := differences 0 (map (fun rc => val (fst rc) (snd rc)) (arw1_order w h)) in
  Forall (fun d => (category d <= 17)%nat) ds ->
  stream MSB buf pad = flat_map arw1_code ds ++ rest -> (13 <= length rest)%nat ->
  exists out, decode_arw1 buf w h = Ok out /\ is_image out w h (fun r c => val r c mod 65536).
Proof.
  intros buf pad w h val rest Hb Hrd Hw Hh He Hv ds HF Es Hr.
  apply Z.even_spec in He. destruct He as [m Em]. subst h. rewrite decode_order by lia.
  pose proof (Repr_new MSB buf pad Hrd) as R. rewrite Es in R.
  destruct (steps_ok w (2 * m) val (arw1_order w (2 * m)) [] (pump_new buf) 0 (zeros (w * (2 * m))) rest) as [p [s [out [E [L D]]]]].
  - exact Hw.
  - intros r c H. cbn [app] in H. apply order_in in H. destruct H. split; [assumption|]. split; [assumption|]. apply Hv; assumption.
  - exact Hr.
  - cbn; lia.
  - split; [exact HF|exact R].
  - rewrite zlen_zeros. lia.
  - intros r c [].
  - rewrite E. cbn [bind]. exists out. split; [reflexivity|]. split; [exact L|]. intros r c Br Bc.
    apply D. cbn [app]. apply order_in. lia.
Qed.

(** The order visits each pixel once. *)
Lemma NoDup_app_intro : forall {A} (l l' : list A), NoDup l -> NoDup l' -> (forall x, In x l -> ~ In x l') -> NoDup (l ++ l').
Proof.
  intros A l l' N N'. induction N as [|a l Ha N IH]; intros H; [exact N'|]. cbn [app]. constructor.
  - rewrite in_app_iff. intros [X|X]; [exact (Ha X)|]. apply (H a); [left; reflexivity|exact X].
  - apply IH. intros x Hx. apply H. right. exact Hx.
Qed.
Lemma NoDup_flat : forall {A B} (f : A -> list B) l, NoDup l -> (forall a, In a l -> NoDup (f a)) ->
  (forall a a' b, In a l -> In a' l -> In b (f a) -> In b (f a') -> a = a') -> NoDup (flat_map f l).
Proof.
  intros A B f l N. induction N as [|a l Ha N IH]; intros Hf Hd; [constructor|]. cbn [flat_map]. apply NoDup_app_intro.
  - apply Hf. left. reflexivity.
  - apply IH; [intros; apply Hf; right; assumption|]. intros x y b Hx Hy. apply Hd; right; assumption.
  - intros b Hb Hb'. apply in_flat_map in Hb'. destruct Hb' as [a' [Ia' Hb']]. apply Ha.
    rewrite (Hd a a' b); [exact Ia'|left; reflexivity|right; exact Ia'|exact Hb|exact Hb'].
Qed.
Lemma order_once : forall w h, NoDup (arw1_order w h).
Proof.
  intros w h. unfold arw1_order. rewrite !upto_zrange. apply NoDup_flat; [apply zrange_NoDup| |].
  - intros x _. apply NoDup_app_intro.
    + apply FinFun.Injective_map_NoDup; [intros a b E; apply pair_equal_spec in E; lia|apply zrange_NoDup].
    + apply FinFun.Injective_map_NoDup; [intros a b E; apply pair_equal_spec in E; lia|apply zrange_NoDup].
    + intros rc H H'. apply in_map_iff in H, H'. destruct H as [a [Ea _]]. destruct H' as [b [Eb _]]. subst rc. apply pair_equal_spec in Eb. lia.
  - intros a a' b _ _ H H'. apply in_app_iff in H, H'. rewrite !in_map_iff in H, H'.
    destruct H as [[i [E _]]|[i [E _]]]; destruct H' as [[i' [E' _]]|[i' [E' _]]]; subst b; apply pair_equal_spec in E'; lia.
Qed.
Lemma order_all : forall w h r c, Z.even h = true -> In (r, c) (arw1_order w h) <-> 0 <= r < h /\ 0 <= c < w.
Proof. intros w h r c He. apply Z.even_spec in He. destruct He as [m ->]. apply order_in. Qed.

(** An odd number of rows, and none. *)
Lemma odd_rows : exists buf out, decode_arw1 buf 1 3 = Ok out /\ out = [1; 0; 1] /\
  exists rest, stream MSB buf 0 = flat_map arw1_code (differences 0 [1; 1; 1]) ++ rest /\ (13 <= length rest)%nat.
Proof.
  exists ([237; 128; 0; 0; 0; 0; 0; 0]), [1; 0; 1]. split; [destruct M; vm_compute; reflexivity|]. split; [reflexivity|].
  eexists. split; [vm_compute; reflexivity|vm_compute; lia].
Qed.
Lemma no_rows : forall w, 0 < w -> decode_arw1 (repeat 0 8) w 0 = Panic.
Proof.
  intros w Hw. unfold decode_arw1. rewrite (zrange_cons 0 w) by lia. cbn [rfold].
  replace (w * 0) with 0 by lia. set (r := arw1_column _ _ _ _ _ _ _ _).
  assert (E : r = Panic); [|rewrite E; reflexivity].
  unfold r. change (Z.to_nat (2 * 0)) with 0%nat. cbn [arw1_column]. change (0 <=? 0) with true. change (0 =? 0) with true. cbn iota.
  change (zeros 0) with (@nil Z). unfold upd. 
  assert (E : exists x, arw1_next (pump_new (repeat 0 8)) 0 = Ok x) by (eexists; destruct M; vm_compute; reflexivity).
  destruct E as [[s p] E]. unfold arw1_next in E.
  destruct (arw1_len _) as [[l p1]| | |]; cbn [bind] in *; try discriminate.
  destruct (get_ibits MSB p1 l) as [[d p2]| | |]; cbn [bind] in *; try discriminate.
  destruct (arw1_sum l d 0) as [s1| | |]; cbn [bind] in *; try discriminate.
  destruct ((0 <=? 1 * w + (w - 1 - 0)) && (1 * w + (w - 1 - 0) <? zlen [])) eqn:Q; [cbn in Q; lia|reflexivity].
Qed.
End Arw1.
