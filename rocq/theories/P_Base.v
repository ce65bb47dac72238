(** Lemmas about the base vocabulary. *)
From Coq Require Import ZArith List Bool Lia ZifyBool ZifyNat FinFun.
From Verif Require Import Base.
Import ListNotations.
Local Open Scope Z_scope.
Ltac Zify.zify_post_hook ::= Z.div_mod_to_equations.

(** Evaluate powers of two with literal exponents. *)
Ltac p2 :=
  repeat match goal with
  | |- context [2 ^ Z.pos ?n] =>
      let v := eval vm_compute in (2 ^ Z.pos n) in change (2 ^ Z.pos n) with v
  | |- context [2 ^ 0] => change (2 ^ 0) with 1
  | H : context [2 ^ Z.pos ?n] |- _ =>
      let v := eval vm_compute in (2 ^ Z.pos n) in change (2 ^ Z.pos n) with v in H
  | H : context [2 ^ 0] |- _ => change (2 ^ 0) with 1 in H
  end.
Ltac p2lia := p2; lia.

Lemma zlen_nonneg : forall {A} (l : list A), 0 <= zlen l.
Proof. intros; unfold zlen; lia. Qed.
Lemma zlen_cons : forall {A} (x : A) l, zlen (x :: l) = 1 + zlen l.
Proof. intros; unfold zlen; cbn [length]; lia. Qed.
Lemma zlen_nil : forall {A}, zlen (@nil A) = 0.
Proof. reflexivity. Qed.
Lemma zlen_app : forall {A} (a b : list A), zlen (a ++ b) = zlen a + zlen b.
Proof. intros; unfold zlen; rewrite app_length; lia. Qed.
Lemma zlen_repeat : forall {A} (x : A) n, zlen (repeat x n) = Z.of_nat n.
Proof. intros; unfold zlen; rewrite repeat_length; lia. Qed.
Lemma zlen_zeros : forall n, zlen (zeros n) = Z.max 0 n.
Proof. intros; unfold zeros; rewrite zlen_repeat; lia. Qed.
Lemma zlen_skipn : forall {A} n (l : list A), zlen (skipn n l) = Z.max 0 (zlen l - Z.of_nat n).
Proof. intros; unfold zlen; rewrite skipn_length; lia. Qed.
Lemma zlen_firstn : forall {A} n (l : list A), zlen (firstn n l) = Z.min (Z.of_nat n) (zlen l).
Proof. intros; unfold zlen; rewrite firstn_length; lia. Qed.
Lemma zlen_map : forall {A B} (f : A -> B) l, zlen (map f l) = zlen l.
Proof. intros; unfold zlen; rewrite map_length; lia. Qed.

Lemma bind_Ok : forall {A B} (a : A) (k : A -> res B), bind (Ok a) k = k a.
Proof. reflexivity. Qed.
Lemma bind_inv : forall {A B} (x : res A) (k : A -> res B) b,
  bind x k = Ok b -> exists a, x = Ok a /\ k a = Ok b.
Proof. intros A B [a| | |] k b H; cbn in H; try discriminate; eauto. Qed.

(** Decompose an equation [bind .. = Ok ..] in a hypothesis. *)
Ltac inv_bind H :=
  let a := fresh "v" in let E := fresh "E" in
  apply bind_inv in H; destruct H as [a [E H]].

Section Arith.
Context {M : Mode}.
Lemma arith_u_ok : forall n v, 0 <= v < 2 ^ n -> arith_u n v = Ok v.
Proof.
  intros n v H; unfold arith_u.
  replace ((0 <=? v) && (v <? 2 ^ n)) with true; [reflexivity | lia].
Qed.
Lemma arith_s_ok : forall n v, - 2 ^ (n - 1) <= v < 2 ^ (n - 1) -> arith_s n v = Ok v.
Proof.
  intros n v H; unfold arith_s.
  replace ((- 2 ^ (n - 1) <=? v) && (v <? 2 ^ (n - 1))) with true; [reflexivity | lia].
Qed.
Lemma arith_u_range : forall n v r, 0 <= n -> arith_u n v = Ok r -> 0 <= r < 2 ^ n.
Proof.
  intros n v r Hn H; unfold arith_u in H.
  pose proof (Z.pow_pos_nonneg 2 n ltac:(lia) Hn).
  destruct ((0 <=? v) && (v <? 2 ^ n)) eqn:E; [injection H as <-; lia|].
  destruct debug; [discriminate|]. injection H as <-.
  apply Z.mod_pos_bound; lia.
Qed.
Lemma usub_ok : forall a b, 0 <= b <= a -> a < 2 ^ 64 -> usub a b = Ok (a - b).
Proof. intros; unfold usub; apply arith_u_ok; lia. Qed.
Lemma shamt_ok : forall n s, 0 <= s < n -> shamt n s = Ok s.
Proof.
  intros n s H; unfold shamt.
  replace ((0 <=? s) && (s <? n)) with true; [reflexivity | lia].
Qed.
Lemma shl_u_ok : forall n a s, 0 <= s < n -> 0 <= a * 2 ^ s < 2 ^ n ->
  shl_u n a s = Ok (a * 2 ^ s).
Proof.
  intros n a s H H1; unfold shl_u. rewrite shamt_ok by lia. cbn.
  rewrite Z.shiftl_mul_pow2 by lia. rewrite Z.mod_small by lia. reflexivity.
Qed.
Lemma shr_u_ok : forall n a s, 0 <= s < n -> shr_u n a s = Ok (a / 2 ^ s).
Proof.
  intros n a s H; unfold shr_u. rewrite shamt_ok by lia. cbn.
  rewrite Z.shiftr_div_pow2 by lia. reflexivity.
Qed.
End Arith.

(** Bitwise operations as arithmetic. *)
Lemma lor_shiftl_add : forall a b n, 0 <= n -> 0 <= b < 2 ^ n ->
  Z.lor (Z.shiftl a n) b = a * 2 ^ n + b.
Proof.
  intros a b n Hn Hb.
  assert (E : Z.land (Z.shiftl a n) b = 0).
  { apply Z.bits_inj'. intros k Hk. rewrite Z.land_spec, Z.bits_0.
    destruct (Z_lt_ge_dec k n).
    - rewrite Z.shiftl_spec_low by lia. reflexivity.
    - replace b with (b mod 2 ^ n) by (apply Z.mod_small; lia).
      rewrite Z.mod_pow2_bits_high by lia. apply andb_false_r. }
  rewrite <- Z.lxor_lor by exact E. rewrite <- Z.add_nocarry_lxor by exact E.
  rewrite Z.shiftl_mul_pow2 by lia. lia.
Qed.
Lemma lor_mul_add : forall a b n, 0 <= n -> 0 <= b < 2 ^ n ->
  Z.lor (a * 2 ^ n) b = a * 2 ^ n + b.
Proof.
  intros. rewrite <- Z.shiftl_mul_pow2 by lia. rewrite lor_shiftl_add by lia.
  rewrite Z.shiftl_mul_pow2 by lia. reflexivity.
Qed.
Lemma land_ones_mod : forall a n, 0 <= n -> Z.land a (2 ^ n - 1) = a mod 2 ^ n.
Proof.
  intros a n Hn. rewrite <- Z.land_ones by lia. rewrite Z.ones_equiv.
  f_equal; lia.
Qed.

(** get / upd / slice *)
Lemma nth_error_znth : forall l i, 0 <= i < zlen l ->
  nth_error l (Z.to_nat i) = Some (znth l i).
Proof.
  intros l i H. unfold znth. apply nth_error_nth'. unfold zlen in H; lia.
Qed.
Lemma get_ok : forall l i, 0 <= i < zlen l -> get l i = Ok (znth l i).
Proof.
  intros l i H; unfold get.
  replace ((0 <=? i) && (i <? zlen l)) with true by lia.
  rewrite nth_error_znth by lia. reflexivity.
Qed.
Lemma get_ok_inv : forall {A} (l : list A) i v, get l i = Ok v ->
  0 <= i < zlen l /\ nth_error l (Z.to_nat i) = Some v.
Proof.
  intros A l i v H; unfold get in H.
  destruct ((0 <=? i) && (i <? zlen l)) eqn:E; [|discriminate].
  split; [lia|]. destruct (nth_error l (Z.to_nat i)); congruence.
Qed.
Lemma get_oob : forall {A} (l : list A) i, ~ (0 <= i < zlen l) -> get l i = Panic.
Proof.
  intros A l i H; unfold get.
  replace ((0 <=? i) && (i <? zlen l)) with false by lia. reflexivity.
Qed.
Lemma get_znth_inv : forall l i v, get l i = Ok v -> 0 <= i < zlen l /\ v = znth l i.
Proof.
  intros l i v H. destruct (get_ok_inv _ _ _ H) as [Hr Hn]. split; [assumption|].
  rewrite nth_error_znth in Hn by lia. congruence.
Qed.
Lemma upd_nat_length : forall {A} (l : list A) n v, length (upd_nat l n v) = length l.
Proof. induction l; intros [|n] v; cbn; auto. Qed.
Lemma upd_nat_nth_same : forall {A} (l : list A) n v d, (n < length l)%nat ->
  nth n (upd_nat l n v) d = v.
Proof.
  induction l as [|x l IH]; intros [|n] v d H; cbn in *; try lia; auto.
  apply IH; lia.
Qed.
Lemma upd_nat_nth_other : forall {A} (l : list A) n m v d, n <> m ->
  nth m (upd_nat l n v) d = nth m l d.
Proof.
  induction l as [|x l IH]; intros [|n] [|m] v d H; cbn; auto; try congruence.
Qed.
Lemma upd_ok : forall {A} (l : list A) i v, 0 <= i < zlen l ->
  upd l i v = Ok (upd_nat l (Z.to_nat i) v).
Proof.
  intros A l i v H; unfold upd.
  replace ((0 <=? i) && (i <? zlen l)) with true by lia. reflexivity.
Qed.
Lemma upd_oob : forall {A} (l : list A) i v, ~ (0 <= i < zlen l) -> upd l i v = Panic.
Proof.
  intros A l i v H; unfold upd.
  replace ((0 <=? i) && (i <? zlen l)) with false by lia. reflexivity.
Qed.
Lemma upd_inv : forall {A} (l : list A) i v r, upd l i v = Ok r ->
  0 <= i < zlen l /\ r = upd_nat l (Z.to_nat i) v.
Proof.
  intros A l i v r H; unfold upd in H.
  destruct ((0 <=? i) && (i <? zlen l)) eqn:E; [|discriminate].
  split; [lia|congruence].
Qed.
Lemma zlen_upd_nat : forall {A} (l : list A) n v, zlen (upd_nat l n v) = zlen l.
Proof. intros; unfold zlen; rewrite upd_nat_length; reflexivity. Qed.
Lemma znth_upd_nat : forall l i j v, 0 <= i < zlen l -> 0 <= j ->
  znth (upd_nat l (Z.to_nat i) v) j = if j =? i then v else znth l j.
Proof.
  intros l i j v Hi Hj. unfold znth. destruct (j =? i) eqn:E.
  - replace j with i by lia. apply upd_nat_nth_same. unfold zlen in Hi; lia.
  - apply upd_nat_nth_other. lia.
Qed.
Lemma upd_Forall : forall {A} (P : A -> Prop) l i v r,
  upd l i v = Ok r -> Forall P l -> P v -> Forall P r.
Proof.
  intros A P l i v r H HF Hv. apply upd_inv in H. destruct H as [_ ->].
  generalize (Z.to_nat i) as n. induction HF; intros [|n]; cbn; auto.
Qed.
Lemma slice_ok : forall {A} (l : list A) a b, 0 <= a <= b -> b <= zlen l ->
  slice l a b = Ok (firstn (Z.to_nat (b - a)) (skipn (Z.to_nat a) l)).
Proof.
  intros A l a b H H1; unfold slice.
  replace ((0 <=? a) && (a <=? b) && (b <=? zlen l)) with true by lia. reflexivity.
Qed.
Lemma slice_inv : forall {A} (l : list A) a b r, slice l a b = Ok r ->
  0 <= a <= b /\ b <= zlen l /\ r = firstn (Z.to_nat (b - a)) (skipn (Z.to_nat a) l).
Proof.
  intros A l a b r H; unfold slice in H.
  destruct ((0 <=? a) && (a <=? b) && (b <=? zlen l)) eqn:E; [|discriminate].
  repeat split; try lia; congruence.
Qed.
Lemma slice_oob : forall {A} (l : list A) a b, ~ (0 <= a <= b /\ b <= zlen l) ->
  slice l a b = Panic.
Proof.
  intros A l a b H; unfold slice.
  replace ((0 <=? a) && (a <=? b) && (b <=? zlen l)) with false by lia. reflexivity.
Qed.
Lemma slice_from_ok : forall {A} (l : list A) a, 0 <= a <= zlen l ->
  slice_from l a = Ok (skipn (Z.to_nat a) l).
Proof.
  intros A l a H; unfold slice_from.
  replace ((0 <=? a) && (a <=? zlen l)) with true by lia. reflexivity.
Qed.
Lemma slice_from_inv : forall {A} (l : list A) a r, slice_from l a = Ok r ->
  0 <= a <= zlen l /\ r = skipn (Z.to_nat a) l.
Proof.
  intros A l a r H; unfold slice_from in H.
  destruct ((0 <=? a) && (a <=? zlen l)) eqn:E; [|discriminate].
  split; [lia|congruence].
Qed.
Lemma slice_from_oob : forall {A} (l : list A) a, ~ (0 <= a <= zlen l) ->
  slice_from l a = Panic.
Proof.
  intros A l a H; unfold slice_from.
  replace ((0 <=? a) && (a <=? zlen l)) with false by lia. reflexivity.
Qed.

Lemma nth_skipn' : forall {A} n (l : list A) i d, nth i (skipn n l) d = nth (n + i) l d.
Proof.
  induction n; intros l i d; [reflexivity|].
  destruct l; cbn; [destruct i; reflexivity|]. apply IHn.
Qed.
Lemma nth_firstn' : forall {A} n (l : list A) i d, (i < n)%nat ->
  nth i (firstn n l) d = nth i l d.
Proof.
  induction n; intros l i d H; [lia|]. destruct l; cbn; [reflexivity|].
  destruct i; cbn; [reflexivity|]. apply IHn; lia.
Qed.
Lemma znth_skipn : forall a l i, 0 <= a -> 0 <= i ->
  znth (skipn (Z.to_nat a) l) i = znth l (a + i).
Proof.
  intros a l i Ha Hi. unfold znth. rewrite nth_skipn'. f_equal. lia.
Qed.
Lemma znth_firstn : forall n l i, 0 <= i < n ->
  znth (firstn (Z.to_nat n) l) i = znth l i.
Proof. intros n l i H. unfold znth. apply nth_firstn'. lia. Qed.
Lemma znth_app_l : forall a b i, 0 <= i < zlen a -> znth (a ++ b) i = znth a i.
Proof. intros a b i H. unfold znth, zlen in *. apply app_nth1. lia. Qed.
Lemma znth_app_r : forall a b i, zlen a <= i -> znth (a ++ b) i = znth b (i - zlen a).
Proof.
  intros a b i H. pose proof (zlen_nonneg a). unfold znth, zlen in *.
  rewrite app_nth2 by lia. f_equal. lia.
Qed.
Lemma znth_cons_0 : forall x l, znth (x :: l) 0 = x.
Proof. reflexivity. Qed.
Lemma znth_cons_S : forall x l i, 0 < i -> znth (x :: l) i = znth l (i - 1).
Proof.
  intros x l i H. unfold znth.
  replace (Z.to_nat i) with (S (Z.to_nat (i - 1))) by lia. reflexivity.
Qed.
Lemma znth_zeros : forall n i, znth (zeros n) i = 0.
Proof.
  intros. unfold znth, zeros.
  destruct (Nat.lt_ge_cases (Z.to_nat i) (length (repeat 0 (Z.to_nat n)))).
  - apply (repeat_spec (Z.to_nat n) 0). apply nth_In. assumption.
  - apply nth_overflow. assumption.
Qed.
Lemma znth_overflow : forall l i, zlen l <= i -> znth l i = 0.
Proof. intros. unfold znth. apply nth_overflow. unfold zlen in *. lia. Qed.
Lemma znth_Forall : forall (P : Z -> Prop) l i, Forall P l -> 0 <= i < zlen l -> P (znth l i).
Proof.
  intros P l i HF H. rewrite Forall_forall in HF. apply HF. unfold znth.
  apply nth_In. unfold zlen in H. lia.
Qed.
Lemma list_eq_znth : forall a b : list Z, zlen a = zlen b ->
  (forall i, 0 <= i < zlen a -> znth a i = znth b i) -> a = b.
Proof.
  intros a b HL H. apply nth_ext with (d := 0) (d' := 0).
  - unfold zlen in HL. lia.
  - intros n Hn. specialize (H (Z.of_nat n)). unfold znth, zlen in H.
    rewrite Nat2Z.id in H. apply H. lia.
Qed.
Lemma Forall_skipn : forall {A} (P : A -> Prop) n l, Forall P l -> Forall P (skipn n l).
Proof. induction n; intros l H; [assumption|]. destruct H; cbn; auto. Qed.
Lemma Forall_firstn : forall {A} (P : A -> Prop) n l, Forall P l -> Forall P (firstn n l).
Proof. induction n; intros l H; cbn; auto. destruct H; cbn; auto. Qed.
Lemma skipn_skipn' : forall {A} a b (l : list A), skipn a (skipn b l) = skipn (b + a) l.
Proof.
  intros A a b. induction b; intros l; [reflexivity|].
  destruct l; cbn; [apply skipn_nil|]. apply IHb.
Qed.

(** mapM / rfold *)
Lemma mapM_Ok_Forall2 : forall {A B} (f : A -> res B) xs ys,
  mapM f xs = Ok ys -> Forall2 (fun x y => f x = Ok y) xs ys.
Proof.
  induction xs as [|x t IH]; intros ys H; cbn in H.
  - injection H as <-. constructor.
  - inv_bind H. inv_bind H. injection H as <-. constructor; auto.
Qed.
Lemma Forall2_mapM_Ok : forall {A B} (f : A -> res B) xs ys,
  Forall2 (fun x y => f x = Ok y) xs ys -> mapM f xs = Ok ys.
Proof.
  induction 1 as [|x y xs ys E _ IH]; cbn; [reflexivity|].
  rewrite E; cbn. rewrite IH; reflexivity.
Qed.
Lemma mapM_map : forall {A B} (f : A -> res B) (g : A -> B) xs,
  (forall x, In x xs -> f x = Ok (g x)) -> mapM f xs = Ok (map g xs).
Proof.
  induction xs as [|x t IH]; intros H; cbn; [reflexivity|].
  rewrite (H x) by (left; reflexivity). cbn.
  rewrite IH; [reflexivity|]. intros; apply H; right; assumption.
Qed.
Lemma mapM_length : forall {A B} (f : A -> res B) xs ys,
  mapM f xs = Ok ys -> length ys = length xs.
Proof. intros A B f xs ys H. apply mapM_Ok_Forall2 in H. induction H; cbn; auto. Qed.
Lemma mapM_panic : forall {A B} (f : A -> res B) xs,
  (forall x, In x xs -> exists y, f x = Ok y \/ f x = Panic) ->
  Exists (fun x => f x = Panic) xs -> mapM f xs = Panic.
Proof.
  induction xs as [|x t IH]; intros Ha He; cbn; [inversion He|].
  destruct (Ha x (or_introl eq_refl)) as [y [E|E]]; rewrite E; cbn; [|reflexivity].
  rewrite IH; [reflexivity| |].
  - intros; apply Ha; right; assumption.
  - inversion He; subst; [congruence|assumption].
Qed.
Lemma mapM_not_ok : forall {A B} (f : A -> res B) xs x,
  In x xs -> (forall y, f x <> Ok y) -> forall ys, mapM f xs <> Ok ys.
Proof.
  intros A B f xs x Hin Hf ys H. apply mapM_Ok_Forall2 in H.
  induction H as [|a b xs ys Eab _ IH]; [inversion Hin|].
  destruct Hin as [<-|Hin]; [eapply Hf; eassumption|auto].
Qed.
Lemma rfold_app : forall {A S} (f : A -> S -> res S) xs ys s,
  rfold f (xs ++ ys) s = bind (rfold f xs s) (rfold f ys).
Proof.
  induction xs as [|x t IH]; intros ys s; cbn; [reflexivity|].
  destruct (f x s); cbn; auto.
Qed.
(** Invariant rule for loops that succeed. *)
Lemma rfold_inv : forall {A S} (f : A -> S -> res S) (P : S -> Prop) xs s s',
  (forall x s1 s2, In x xs -> P s1 -> f x s1 = Ok s2 -> P s2) ->
  P s -> rfold f xs s = Ok s' -> P s'.
Proof.
  induction xs as [|x t IH]; intros s s' Hs H0 H; cbn in H.
  - injection H as <-. assumption.
  - inv_bind H. eapply IH; [| |exact H].
    + intros; eapply Hs; [right|..]; eassumption.
    + eapply Hs; [left; reflexivity|..]; eassumption.
Qed.

(** Ranges *)
Lemma zrange_length : forall a b, length (zrange a b) = Z.to_nat (b - a).
Proof. intros; unfold zrange; rewrite map_length, seq_length; reflexivity. Qed.
Lemma zrange_In : forall a b x, In x (zrange a b) <-> a <= x < b.
Proof.
  intros a b x; unfold zrange; rewrite in_map_iff; split.
  - intros [k [<- Hk]]. apply in_seq in Hk. lia.
  - intros H. exists (Z.to_nat (x - a)). split; [lia|]. apply in_seq. lia.
Qed.
Lemma zrange_empty : forall a b, b <= a -> zrange a b = [].
Proof. intros; unfold zrange. replace (Z.to_nat (b - a)) with O by lia. reflexivity. Qed.
Lemma zrange_cons : forall a b, a < b -> zrange a b = a :: zrange (a + 1) b.
Proof.
  intros a b H; unfold zrange.
  replace (Z.to_nat (b - a)) with (S (Z.to_nat (b - (a + 1)))) by lia.
  cbn [seq map]. f_equal; [lia|]. rewrite <- seq_shift, map_map.
  apply map_ext; intros; lia.
Qed.
Lemma zrange_snoc : forall a b, a <= b -> zrange a (b + 1) = zrange a b ++ [b].
Proof.
  intros a b H; unfold zrange.
  replace (Z.to_nat (b + 1 - a)) with (Z.to_nat (b - a) + 1)%nat by lia.
  rewrite seq_app, map_app. cbn [seq map]. do 2 f_equal. lia.
Qed.
Lemma seq_map_add : forall m q s, map (fun k => (q + k)%nat) (seq s m) = seq (q + s) m.
Proof.
  induction m; intros q s; cbn; [reflexivity|]. f_equal. rewrite IHm. f_equal. lia.
Qed.
Lemma zrange_split : forall a b c, a <= b <= c -> zrange a c = zrange a b ++ zrange b c.
Proof.
  intros a b c H. unfold zrange.
  replace (Z.to_nat (c - a)) with (Z.to_nat (b - a) + Z.to_nat (c - b))%nat by lia.
  rewrite seq_app, map_app. f_equal.
  rewrite Nat.add_0_l. generalize (Z.to_nat (c - b)) as m. intros m.
  replace (seq (Z.to_nat (b - a)) m) with (map (fun k => (Z.to_nat (b - a) + k)%nat) (seq 0 m)).
  2:{ rewrite seq_map_add. f_equal. lia. }
  rewrite !map_map. apply map_ext. intros. lia.
Qed.
Lemma zrange_nth : forall a b n d, (n < Z.to_nat (b - a))%nat -> nth n (zrange a b) d = a + Z.of_nat n.
Proof.
  intros a b n d H. unfold zrange.
  rewrite nth_indep with (d' := a + Z.of_nat 0) by (rewrite map_length, seq_length; lia).
  rewrite (map_nth (fun k => a + Z.of_nat k)). rewrite seq_nth by lia. lia.
Qed.
Lemma zrange_NoDup : forall a b, NoDup (zrange a b).
Proof.
  intros. unfold zrange. apply Injective_map_NoDup; [|apply seq_NoDup].
  intros x y H. lia.
Qed.

(** Invariant rule for counting loops. *)
Lemma rfold_zrange : forall {S} (f : Z -> S -> res S) (P : Z -> S -> Prop) a b s,
  a <= b -> P a s ->
  (forall i s1, a <= i < b -> P i s1 -> exists s2, f i s1 = Ok s2 /\ P (i + 1) s2) ->
  exists s', rfold f (zrange a b) s = Ok s' /\ P b s'.
Proof.
  intros S f P a b s Hab H0 Hstep.
  remember (Z.to_nat (b - a)) as n eqn:En. revert a s Hab H0 Hstep En.
  induction n; intros a s Hab H0 Hstep En.
  - rewrite zrange_empty by lia. replace b with a by lia. exists s; auto.
  - rewrite zrange_cons by lia. cbn [rfold].
    destruct (Hstep a s) as [s2 [E2 H2]]; [lia|assumption|].
    rewrite E2; cbn. apply IHn; try lia; try assumption.
    intros; apply Hstep; [lia|assumption].
Qed.

Lemma Forall2_length : forall {A B} (R : A -> B -> Prop) l1 l2, Forall2 R l1 l2 -> length l1 = length l2.
Proof. induction 1; cbn; congruence. Qed.
Lemma nth_map_seq : forall {A} (f : nat -> A) n k d, (k < n)%nat -> nth k (map f (seq 0 n)) d = f k.
Proof.
  intros A f n k d Hk. rewrite nth_indep with (d' := f O) by (rewrite map_length, seq_length; assumption).
  rewrite map_nth, seq_nth by assumption. reflexivity.
Qed.
