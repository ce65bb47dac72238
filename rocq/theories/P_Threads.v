(** Row-parallel decoding: structure of the result and schedule independence. *)
From Coq Require Import ZArith List Bool Lia ZifyBool ZifyNat Arith.
From Verif Require Import Base Threads Spec_Bits Spec_Image Spec_Threads P_Base.
Import ListNotations.
Local Open Scope Z_scope.
Ltac Zify.zify_post_hook ::= Z.div_mod_to_equations.

Lemma chunks_aux_fuel : forall {A} n f1 f2 (l : list A), (0 < n)%nat ->
  (length l <= f1)%nat -> (length l <= f2)%nat -> chunks_aux f1 n l = chunks_aux f2 n l.
Proof.
  intros A n f1. induction f1; intros f2 l Hn H1 H2.
  - destruct l; [|cbn in H1; lia]. destruct f2; reflexivity.
  - destruct f2.
    + destruct l; [|cbn in H2; lia]. reflexivity.
    + cbn [chunks_aux]. destruct l as [|x l]; [reflexivity|]. f_equal.
      apply IHf1; [assumption|rewrite skipn_length; cbn [length] in *; lia..].
Qed.
Lemma chunks_nil : forall {A} n, chunks n (@nil A) = [].
Proof. reflexivity. Qed.
Lemma chunks_cons : forall {A} n (l : list A), (0 < n)%nat -> l <> [] ->
  chunks n l = firstn n l :: chunks n (skipn n l).
Proof.
  intros A n l Hn Hl. unfold chunks. destruct l as [|x l]; [congruence|].
  cbn [length chunks_aux]. f_equal. apply chunks_aux_fuel; [assumption|rewrite skipn_length; cbn [length]; lia|lia].
Qed.
Lemma firstn_repeat_le : forall {A} (x : A) n m, (n <= m)%nat -> firstn n (repeat x m) = repeat x n.
Proof.
  induction n; intros m H; [reflexivity|]. destruct m; [lia|]. cbn. f_equal. apply IHn. lia.
Qed.
Lemma skipn_repeat : forall {A} (x : A) n m, skipn n (repeat x m) = repeat x (m - n).
Proof. induction n; intros m; [rewrite Nat.sub_0_r; reflexivity|]. destruct m; [reflexivity|]. cbn. apply IHn. Qed.
Lemma chunks_repeat : forall {A} (x : A) n k, (0 < n)%nat ->
  chunks n (repeat x (n * k)) = repeat (repeat x n) k.
Proof.
  intros A x n k Hn. induction k.
  - rewrite Nat.mul_0_r. reflexivity.
  - rewrite chunks_cons; [|assumption|].
    + rewrite firstn_repeat_le by (rewrite Nat.mul_succ_r; lia). rewrite skipn_repeat.
      replace (n * S k - n)%nat with (n * k)%nat by (rewrite Nat.mul_succ_r; lia). rewrite IHk. reflexivity.
    + intros E. apply (f_equal (@length A)) in E. rewrite repeat_length, Nat.mul_succ_r in E. cbn [length] in E. lia.
Qed.
Lemma combine_repeat_map : forall {A} (x : A) l n, (length l <= n)%nat ->
  combine l (repeat x n) = map (fun i : Z => (i, x)) l.
Proof.
  intros A x l. induction l; intros n H; [reflexivity|]. destruct n; [cbn in H; lia|].
  cbn. f_equal. apply IHl. cbn in H; lia.
Qed.
Lemma mapM_map_comp : forall {A B C} (f : B -> res C) (g : A -> B) xs,
  mapM f (map g xs) = mapM (fun x => f (g x)) xs.
Proof. induction xs; cbn; [reflexivity|]. rewrite IHxs. reflexivity. Qed.

Lemma decode_threaded_rows : forall w h f, 0 < w -> 0 <= h ->
  decode_threaded w h f =
  (lines <- mapM (f (zeros w)) (zrange 0 h) ;; Ok (concat lines)).
Proof.
  intros w h f Hw Hh. unfold decode_threaded. replace (w =? 0) with false by lia.
  unfold zeros at 1. replace (Z.to_nat (w * h)) with (Z.to_nat w * Z.to_nat h)%nat by nia.
  rewrite chunks_repeat by lia. unfold enumerate. rewrite zlen_repeat.
  rewrite combine_repeat_map by (rewrite zrange_length; lia).
  rewrite mapM_map_comp. rewrite Z2Nat.id by lia. reflexivity.
Qed.
Lemma decode_threaded_zero_width : forall h f, decode_threaded 0 h f = Panic.
Proof. reflexivity. Qed.

Lemma concat_length_const : forall (ls : list (list Z)) w, Forall (fun l => zlen l = w) ls ->
  zlen (concat ls) = w * zlen ls.
Proof.
  induction 1; cbn [concat]; [unfold zlen; cbn; lia|]. rewrite zlen_app, zlen_cons. lia.
Qed.
Lemma znth_concat : forall ls w r c, Forall (fun l => zlen l = w) ls ->
  0 <= r < zlen ls -> 0 <= c < w ->
  znth (concat ls) (r * w + c) = znth (nth (Z.to_nat r) ls []) c.
Proof.
  intros ls w r c HF. revert r. induction HF as [|l ls Hl HF IH]; intros r Hr Hc.
  - unfold zlen in Hr; cbn in Hr; lia.
  - cbn [concat]. rewrite zlen_cons in Hr. destruct (Z.eq_dec r 0) as [->|Hn].
    + rewrite Z.mul_0_l, Z.add_0_l. rewrite znth_app_l by lia. reflexivity.
    + rewrite znth_app_r by nia. rewrite Hl.
      replace (r * w + c - w) with ((r - 1) * w + c) by lia. rewrite IH by lia.
      replace (Z.to_nat r) with (S (Z.to_nat (r - 1))) by lia. reflexivity.
Qed.

Lemma decode_threaded_image : forall w h f pix, 0 < w -> 0 <= h ->
  (forall r, 0 <= r < h -> exists line, f (zeros w) r = Ok line /\ zlen line = w /\
     forall c, 0 <= c < w -> znth line c = pix r c) ->
  exists img, decode_threaded w h f = Ok img /\ is_image img w h pix.
Proof.
  intros w h f pix Hw Hh H. rewrite decode_threaded_rows by assumption.
  assert (HF : exists ls, Forall2 (fun r l => f (zeros w) r = Ok l) (zrange 0 h) ls /\
     Forall (fun l => zlen l = w) ls /\
     Forall2 (fun r l => forall c, 0 <= c < w -> znth l c = pix r c) (zrange 0 h) ls).
  { assert (HI : forall r, In r (zrange 0 h) -> 0 <= r < h) by (intros; apply zrange_In; assumption).
    induction (zrange 0 h) as [|r t IH].
    - exists []. repeat constructor.
    - destruct IH as [ls [I1 [I2 I3]]]; [intros; apply HI; right; assumption|].
      destruct (H r) as [line [E [L P]]]; [apply HI; left; reflexivity|].
      exists (line :: ls). repeat constructor; assumption. }
  destruct HF as [ls [F1 [F2 F3]]]. rewrite (Forall2_mapM_Ok _ _ _ F1). cbn [bind].
  exists (concat ls). split; [reflexivity|].
  assert (LL : zlen ls = h).
  { apply Forall2_length in F1. rewrite zrange_length in F1. unfold zlen. lia. }
  split.
  - change (zlen (concat ls) = w * h). rewrite (concat_length_const _ w) by assumption. lia.
  - intros r c Hr Hc. change (znth (concat ls) (r * w + c) = pix r c).
    rewrite znth_concat by (try assumption; lia).
    assert (G : forall rs ls, Forall2 (fun r l => forall c, 0 <= c < w -> znth l c = pix r c) rs ls ->
       forall n, (n < length rs)%nat -> znth (nth n ls []) c = pix (nth n rs 0) c).
    { clear - Hc. induction 1 as [|r l rs ls E _ IH]; intros n Hn; cbn in Hn; [lia|].
      destruct n; cbn [nth]; [apply E; assumption|]. apply IH; lia. }
    rewrite (G _ _ F3) by (rewrite zrange_length; lia).
    rewrite zrange_nth by lia. f_equal. lia.
Qed.

Lemma decode_threaded_inv : forall w h f img, decode_threaded w h f = Ok img -> 0 <= w -> 0 <= h ->
  0 < w /\ exists ls, Forall2 (fun r l => f (zeros w) r = Ok l) (zrange 0 h) ls /\ img = concat ls.
Proof.
  intros w h f img H Hw Hh. assert (0 < w).
  { destruct (Z.eq_dec w 0) as [->|]; [cbn in H; discriminate|lia]. }
  split; [assumption|]. rewrite decode_threaded_rows in H by assumption. inv_bind H.
  injection H as <-. exists v. split; [|reflexivity]. apply mapM_Ok_Forall2; assumption.
Qed.

(** Length and range of any successful result. *)
Lemma decode_threaded_shape : forall w h f img (P : Z -> Prop),
  decode_threaded w h f = Ok img -> 0 <= w -> 0 <= h ->
  (forall r l, 0 <= r < h -> f (zeros w) r = Ok l -> zlen l = w /\ Forall P l) ->
  zlen img = w * h /\ Forall P img.
Proof.
  intros w h f img P H Hw Hh Hf. destruct (decode_threaded_inv _ _ _ _ H Hw Hh) as [Hw' [ls [F ->]]].
  assert (HI : forall r, In r (zrange 0 h) -> 0 <= r < h) by (intros; apply zrange_In; assumption).
  assert (A : Forall (fun l => zlen l = w) ls /\ Forall (Forall P) ls).
  { clear H. induction F as [|r l rs ls E F IH]; [split; constructor|].
    destruct IH as [I1 I2]; [intros; apply HI; right; assumption|].
    destruct (Hf r l) as [L Q]; [apply HI; left; reflexivity|assumption|].
    split; constructor; assumption. }
  destruct A as [A1 A2]. split.
  - rewrite (concat_length_const _ w) by assumption.
    apply Forall2_length in F. rewrite zrange_length in F. unfold zlen. nia.
  - clear - A2. induction A2; cbn; [constructor|]. apply Forall_app; auto.
Qed.

(** * Schedules *)
Section Par.
Context {L : Type}.
Variable n : nat.
Variable ws : list (worker L).
Hypothesis n_pos : (0 < n)%nat.
(** A slice keeps its length whatever is written in it. *)
Hypothesis ws_len : forall w, In w ws -> keeps_length w.

Definition chunk_of (i : nat) (mem : list Z) : list Z := firstn n (skipn (i * n) mem).

Lemma skipn_app_exact : forall {A} (a b : list A) k, k = length a -> skipn k (a ++ b) = b.
Proof. intros A a b k ->. rewrite skipn_app, skipn_all, Nat.sub_diag. reflexivity. Qed.

Lemma splice_length : forall mem off c, (off + length c <= length mem)%nat ->
  length (splice mem off c) = length mem.
Proof.
  intros. unfold splice. rewrite !app_length, firstn_length, skipn_length. lia.
Qed.
Lemma splice_nth : forall mem off c k, (off + length c <= length mem)%nat ->
  nth k (splice mem off c) 0 =
  if (Nat.leb off k && Nat.ltb k (off + length c))%bool then nth (k - off) c 0 else nth k mem 0.
Proof.
  intros mem off c k H. unfold splice.
  assert (Lf : length (firstn off mem) = off) by (rewrite firstn_length_le; lia).
  destruct (Nat.leb_spec off k); [destruct (Nat.ltb_spec k (off + length c))|]; cbn [andb].
  - rewrite app_nth2 by lia. rewrite app_nth1 by lia. rewrite Lf. reflexivity.
  - rewrite app_nth2 by lia. rewrite app_nth2 by lia. rewrite nth_skipn', Lf. f_equal. lia.
  - rewrite app_nth1 by lia. apply nth_firstn'. lia.
Qed.
Lemma chunk_of_length : forall i mem, length (chunk_of i mem) = Nat.min n (length mem - i * n).
Proof. intros. unfold chunk_of. rewrite firstn_length, skipn_length. reflexivity. Qed.
Lemma chunk_of_nth : forall i mem k, (k < n)%nat -> nth k (chunk_of i mem) 0 = nth (i * n + k) mem 0.
Proof. intros. unfold chunk_of. rewrite nth_firstn', nth_skipn' by lia. reflexivity. Qed.

Lemma chunk_splice_same : forall i mem c, (i * n <= length mem)%nat -> length c = length (chunk_of i mem) ->
  chunk_of i (splice mem (i * n) c) = c.
Proof.
  intros i mem c Hi Hc. rewrite chunk_of_length in Hc.
  assert (Hb : (i * n + length c <= length mem)%nat) by lia.
  apply nth_ext with (d := 0) (d' := 0).
  - rewrite chunk_of_length, splice_length by assumption. lia.
  - intros k Hk. rewrite chunk_of_length, splice_length in Hk by assumption.
    rewrite chunk_of_nth by lia. rewrite splice_nth by assumption.
    replace (Nat.leb (i * n) (i * n + k) && Nat.ltb (i * n + k) (i * n + length c))%bool with true by lia.
    f_equal. lia.
Qed.
Lemma chunk_splice_other : forall i j mem c, i <> j -> (i * n <= length mem)%nat -> length c = length (chunk_of i mem) ->
  chunk_of j (splice mem (i * n) c) = chunk_of j mem.
Proof.
  intros i j mem c Hij Hi Hc. rewrite chunk_of_length in Hc.
  assert (Hb : (i * n + length c <= length mem)%nat) by lia.
  apply nth_ext with (d := 0) (d' := 0).
  - rewrite !chunk_of_length, splice_length by assumption. reflexivity.
  - intros k Hk. rewrite chunk_of_length, splice_length in Hk by assumption.
    rewrite !chunk_of_nth by lia. rewrite splice_nth by assumption.
    destruct (Nat.leb (i * n) (j * n + k) && Nat.ltb (j * n + k) (i * n + length c))%bool eqn:E; [|reflexivity].
    exfalso. assert (H1 : (i * n <= j * n + k < i * n + n)%nat) by lia.
    assert (k < n)%nat by lia. destruct (Nat.lt_ge_cases i j); nia.
Qed.

Lemma solo_step : forall (w : worker L) k r c,
  solo w (S k) r c = let '(r', c') := solo w k r c in
    match r' with WRun l => wstep w l c' | _ => (r', c') end.
Proof.
  intros w k. induction k; intros r c.
  - destruct r as [l| |]; cbn; [|reflexivity..]. destruct (wstep w l c) as [[] ?]; reflexivity.
  - destruct r as [l| |]; [|reflexivity..].
    change (solo w (S (S k)) (WRun l) c) with (let '(r', c') := wstep w l c in solo w (S k) r' c').
    change (solo w (S k) (WRun l) c) with (let '(r', c') := wstep w l c in solo w k r' c').
    destruct (wstep w l c) as [r' c']. apply IHk.
Qed.
Lemma solo_length : forall w k r c, In w ws -> length (snd (solo w k r c)) = length c.
Proof.
  intros w k. induction k; intros r c Hw; [destruct r; reflexivity|].
  destruct r as [l| |]; [|reflexivity..]. cbn [solo].
  pose proof (ws_len w Hw l c) as Hl. destruct (wstep w l c) as [r' c']. cbn [snd] in Hl.
  rewrite IHk by assumption. assumption.
Qed.

Lemma upd_nat_nth_error : forall {A} (l : list A) i j v, (i < length l)%nat ->
  nth_error (upd_nat l i v) j = if Nat.eqb j i then Some v else nth_error l j.
Proof.
  induction l as [|x l IH]; intros i j v Hi; [cbn in Hi; lia|].
  destruct i, j; cbn; try reflexivity. apply IH. cbn in Hi; lia.
Qed.

(** After any schedule, every worker is exactly where it would be if it had run
    alone for as many steps as it was scheduled. *)
Lemma par_run_invariant : forall mem sched,
  (length ws * n <= length mem + n)%nat ->
  let s := par_run n ws sched (par_init ws mem) in
  length (pmem s) = length mem /\ length (pstat s) = length ws /\
  (forall k, (length ws * n <= k)%nat -> nth k (pmem s) 0 = nth k mem 0) /\
  forall i w, nth_error ws i = Some w ->
    exists r, nth_error (pstat s) i = Some r /\
    (r, chunk_of i (pmem s)) = solo w (count_occ Nat.eq_dec sched i) (WRun (wstart w)) (chunk_of i mem).
Proof.
  intros mem sched Hmem. induction sched as [|j sched IH] using rev_ind.
  - cbn. repeat split; auto.
    + rewrite map_length. reflexivity.
    + intros i w Hw. exists (WRun (wstart w)). split; [|reflexivity].
      rewrite nth_error_map, Hw. reflexivity.
  - cbn zeta in *. unfold par_run in *. rewrite fold_left_app. cbn [fold_left].
    set (s := fold_left (fun s i => par_step n ws i s) sched (par_init ws mem)) in *.
    destruct IH as [I1 [I2 [I3 I4]]].
    assert (Hcount : forall i, count_occ Nat.eq_dec (sched ++ [j]) i
       = (count_occ Nat.eq_dec sched i + if Nat.eqb i j then 1 else 0)%nat).
    { intros i. rewrite count_occ_app. cbn. destruct (Nat.eq_dec j i); destruct (Nat.eqb_spec i j); lia. }
    unfold par_step. destruct (nth_error ws j) as [wj|] eqn:Ej.
    2:{ cbn. repeat split; auto. intros i w Hw. rewrite Hcount.
        destruct (Nat.eqb_spec i j); [congruence|]. rewrite Nat.add_0_r. apply I4; assumption. }
    destruct (I4 j wj Ej) as [rj [Er Es]]. rewrite Er.
    assert (Hj : (j < length ws)%nat) by (apply nth_error_Some; congruence).
    assert (Same : forall i w, nth_error ws i = Some w -> (i <> j \/ (forall l, rj <> WRun l)) ->
      exists r, nth_error (pstat s) i = Some r /\
       (r, chunk_of i (pmem s)) = solo w (count_occ Nat.eq_dec (sched ++ [j]) i) (WRun (wstart w)) (chunk_of i mem)).
    { intros i w Hw Hor. destruct (I4 i w Hw) as [r [Er1 Es1]]. exists r. split; [assumption|].
      rewrite Hcount. destruct (Nat.eqb_spec i j) as [->|Hne].
      - destruct Hor as [?|Hn]; [congruence|]. assert (r = rj) by congruence. subst r.
        replace (count_occ Nat.eq_dec sched j + 1)%nat with (S (count_occ Nat.eq_dec sched j)) by lia.
        rewrite solo_step. rewrite <- Es1. destruct rj; [exfalso; eapply Hn; reflexivity|reflexivity..].
      - rewrite Nat.add_0_r. assumption. }
    destruct rj as [l| |].
    + fold (chunk_of j (pmem s)). destruct (wstep wj l (chunk_of j (pmem s))) as [r' c'] eqn:Ew.
      assert (Lc : length c' = length (chunk_of j (pmem s))).
      { pose proof (ws_len wj (nth_error_In _ _ Ej) l (chunk_of j (pmem s))) as Hl. rewrite Ew in Hl. exact Hl. }
      assert (Hoff : (j * n <= length (pmem s))%nat) by nia.
      assert (Hfit : (j * n + length c' <= length (pmem s))%nat) by (rewrite Lc, chunk_of_length; lia).
      cbn [pmem pstat]. repeat split.
      * rewrite splice_length by assumption. assumption.
      * rewrite upd_nat_length. assumption.
      * intros k Hk. rewrite splice_nth by assumption.
        assert (length c' <= n)%nat by (rewrite Lc, chunk_of_length; lia).
        replace (Nat.leb (j * n) k && Nat.ltb k (j * n + length c'))%bool with false by nia. apply I3; assumption.
      * intros i w Hw. rewrite upd_nat_nth_error by lia. destruct (Nat.eqb_spec i j) as [->|Hne].
        -- exists r'. split; [reflexivity|]. rewrite chunk_splice_same by assumption.
           rewrite Hcount, Nat.eqb_refl, Nat.add_1_r, solo_step. assert (w = wj) by congruence. subst w.
           rewrite <- Es. rewrite Ew. reflexivity.
        -- destruct (Same i w Hw (or_introl Hne)) as [r [E1 E2]]. exists r. split; [assumption|].
           rewrite chunk_splice_other by auto. assumption.
    + repeat split; auto. intros i w Hw. apply Same; [assumption|]. right. intros; discriminate.
    + repeat split; auto. intros i w Hw. apply Same; [assumption|]. right. intros; discriminate.
Qed.


Lemma solo_stable : forall (w : worker L) k1 k2 r c, finished (fst (solo w k1 r c)) -> (k1 <= k2)%nat ->
  solo w k2 r c = solo w k1 r c.
Proof.
  intros w k1 k2 r c Hf Hk. induction Hk; [reflexivity|].
  rewrite solo_step, IHHk. destruct (solo w k1 r c) as [[] ?]; cbn in Hf; [contradiction|reflexivity..].
Qed.
Lemma solo_unique : forall (w : worker L) k1 k2 r c, finished (fst (solo w k1 r c)) -> finished (fst (solo w k2 r c)) ->
  solo w k1 r c = solo w k2 r c.
Proof.
  intros w k1 k2 r c H1 H2. destruct (Nat.le_ge_cases k1 k2).
  - symmetry. apply solo_stable; assumption.
  - apply solo_stable; assumption.
Qed.

(** Memory is determined by its chunks. *)
Lemma mem_chunks_ext : forall m1 m2 k, length m1 = length m2 -> (length m1 <= k * n)%nat ->
  (forall i, (i < k)%nat -> chunk_of i m1 = chunk_of i m2) -> m1 = m2.
Proof.
  intros m1 m2 k HL Hk H. apply nth_ext with (d := 0) (d' := 0); [assumption|].
  intros j Hj. assert (Hlt : (j / n < k)%nat) by (apply Nat.div_lt_upper_bound; nia).
  specialize (H (j / n)%nat Hlt).
  rewrite (Nat.div_mod_eq j n). rewrite (Nat.mul_comm n).
  rewrite <- !chunk_of_nth by (apply Nat.mod_upper_bound; lia). rewrite H. reflexivity.
Qed.

Theorem par_schedule_independent : forall mem s1 s2,
  (length ws * n <= length mem + n)%nat -> (length mem <= length ws * n)%nat ->
  let e1 := par_run n ws s1 (par_init ws mem) in
  let e2 := par_run n ws s2 (par_init ws mem) in
  Forall finished (pstat e1) -> Forall finished (pstat e2) -> e1 = e2.
Proof.
  intros mem s1 s2 H1 H2 e1 e2 F1 F2.
  destruct (par_run_invariant mem s1 H1) as [A1 [A2 [_ A4]]].
  destruct (par_run_invariant mem s2 H1) as [B1 [B2 [_ B4]]].
  fold e1 in A1, A2, A4. fold e2 in B1, B2, B4.
  assert (K : forall i w, nth_error ws i = Some w ->
     nth_error (pstat e1) i = nth_error (pstat e2) i /\ chunk_of i (pmem e1) = chunk_of i (pmem e2)).
  { intros i w Hw. destruct (A4 i w Hw) as [r1 [E1 S1]]. destruct (B4 i w Hw) as [r2 [E2 S2]].
    assert (Fr1 : finished r1) by (rewrite Forall_forall in F1; apply F1; eapply nth_error_In; eassumption).
    assert (Fr2 : finished r2) by (rewrite Forall_forall in F2; apply F2; eapply nth_error_In; eassumption).
    assert (E : (r1, chunk_of i (pmem e1)) = (r2, chunk_of i (pmem e2))).
    { rewrite S1, S2. apply solo_unique; [rewrite <- S1|rewrite <- S2]; assumption. }
    rewrite E1, E2. split; congruence. }
  destruct e1 as [m1 t1], e2 as [m2 t2]. cbn [pmem pstat] in *. f_equal.
  - apply (mem_chunks_ext m1 m2 (length ws)); [lia|lia|]. intros i Hi.
    destruct (nth_error ws i) as [w|] eqn:E; [|apply nth_error_None in E; lia]. apply (K i w E).
  - assert (HX : forall i, nth_error t1 i = nth_error t2 i).
    { intros i. destruct (nth_error ws i) as [w|] eqn:E; [apply (K i w E)|].
      apply nth_error_None in E. rewrite !(proj2 (nth_error_None _ _)) by lia. reflexivity. }
    clear - HX. revert t2 HX. induction t1 as [|a t1 IH]; intros [|b t2] HX; auto.
    + specialize (HX O); discriminate.
    + specialize (HX O); discriminate.
    + f_equal; [specialize (HX O); cbn in HX; congruence|]. apply IH. intros i. apply (HX (S i)).
Qed.
End Par.

(** [par_chunks_mut(n).enumerate().for_each(closure)], one chunk after the other. *)
Definition for_each_chunk (n : nat) (mem : list Z) (closure : list Z -> Z -> res (list Z)) : res (list Z) :=
  lines <- mapM (fun '(i, c) => closure c i) (enumerate (chunks n mem)) ;; Ok (concat lines).

Lemma chunks_spec : forall n (mem : list Z), (0 < n)%nat ->
  chunks n mem = map (fun i => chunk_of n i mem) (seq 0 (length (chunks n mem))) /\
  (length (chunks n mem) * n <= length mem + (n - 1))%nat /\ (length mem <= length (chunks n mem) * n)%nat.
Proof.
  intros n mem Hn. remember (length mem) as k eqn:Ek. revert mem Ek.
  induction k as [k IH] using lt_wf_ind. intros mem Ek. destruct mem as [|x t].
  - cbn in *. subst k. repeat split; lia.
  - rewrite chunks_cons by (try assumption; discriminate).
    assert (Hlt : (length (skipn n (x :: t)) < k)%nat) by (rewrite skipn_length; subst k; cbn [length]; lia).
    destruct (IH _ Hlt (skipn n (x :: t)) eq_refl) as [I1 [I2 I3]].
    rewrite skipn_length, <- Ek in I2, I3. subst k. cbn [length] in *.
    split; [|split; [destruct (Nat.le_gt_cases n (S (length t))); [lia|]|lia]].
    2:{ rewrite (skipn_all2 (x :: t)) by (cbn [length]; lia). cbn. lia. }
    cbn [seq map]. f_equal. rewrite I1 at 1. rewrite <- seq_shift, map_map. apply map_ext.
    intros i. unfold chunk_of. rewrite skipn_skipn'. reflexivity.
Qed.
Lemma enumerate_map : forall {A} (f : nat -> A) m,
  enumerate (map f (seq 0 m)) = map (fun i => (Z.of_nat i, f i)) (seq 0 m).
Proof.
  intros A f m. unfold enumerate. rewrite zlen_map. unfold zlen. rewrite seq_length.
  unfold zrange. rewrite Z.sub_0_r, Nat2Z.id.
  assert (G : forall l, combine (map (fun i => 0 + Z.of_nat i) l) (map f l) = map (fun i => (Z.of_nat i, f i)) l).
  { induction l as [|a l IH]; [reflexivity|]. cbn [map combine]. rewrite IH. reflexivity. }
  apply G.
Qed.

Theorem for_each_any_schedule : forall (L : Type) n mem closure (ws : list (worker L)) sched,
  (0 < n)%nat ->
  length ws = length (chunks n mem) ->
  (forall wk, In wk ws -> keeps_length wk) ->
  (forall i wk, nth_error ws i = Some wk ->
     implements wk (chunk_of n i mem) (closure (chunk_of n i mem) (Z.of_nat i))) ->
  let e := par_run n ws sched (par_init ws mem) in
  Forall finished (pstat e) ->
  match for_each_chunk n mem closure with
  | Ok img => pmem e = img /\ Forall (fun r => r = WDone) (pstat e)
  | Panic => Exists (fun r => r = WPanic) (pstat e)
  | _ => False
  end.
Proof.
  intros L n mem closure ws sched Hn Hlen Hwl Himp e Hfin.
  destruct (chunks_spec n mem Hn) as [Hch [Hc1 Hc2]]. set (m := length (chunks n mem)) in *.
  destruct (par_run_invariant n ws Hn Hwl mem sched) as [A1 [A2 [_ A4]]]; [rewrite Hlen; lia|].
  fold e in A1, A2, A4.
  set (g := fun i => closure (chunk_of n i mem) (Z.of_nat i)).
  assert (Fin : forall i, (i < m)%nat ->
    (exists line, g i = Ok line /\ nth_error (pstat e) i = Some WDone /\ chunk_of n i (pmem e) = line) \/
    (g i = Panic /\ nth_error (pstat e) i = Some WPanic)).
  { intros i Hi. destruct (nth_error ws i) as [wk|] eqn:Hwk; [|apply nth_error_None in Hwk; lia].
    destruct (A4 i wk Hwk) as [r [Er Es]].
    assert (Fr : finished r) by (rewrite Forall_forall in Hfin; apply Hfin; eapply nth_error_In; eassumption).
    pose proof (Himp i wk Hwk) as Hi'. fold (g i) in Hi'. destruct (g i) as [line|msg| |]; cbn in Hi'; try contradiction.
    - left. exists line. destruct Hi' as [k Ek].
      assert (E : (r, chunk_of n i (pmem e)) = (WDone, line)).
      { rewrite Es, <- Ek. apply solo_unique; [rewrite <- Es; assumption|rewrite Ek; exact I]. }
      rewrite Er. repeat split; congruence.
    - right. destruct Hi' as [k [line Ek]].
      assert (E : (r, chunk_of n i (pmem e)) = (WPanic, line)).
      { rewrite Es, <- Ek. apply solo_unique; [rewrite <- Es; assumption|rewrite Ek; exact I]. }
      rewrite Er. split; congruence. }
  unfold for_each_chunk. rewrite Hch, enumerate_map, mapM_map_comp.
  change (mapM (fun x : nat => closure (chunk_of n x mem) (Z.of_nat x))) with (mapM g).
  (* the sequential run over the first chunks *)
  assert (Seq : forall k, (k <= m)%nat ->
     (mapM g (seq (m - k) k) = Ok (map (fun i => chunk_of n i (pmem e)) (seq (m - k) k)) /\
        forall i, (m - k <= i < m)%nat -> nth_error (pstat e) i = Some WDone) \/
     (mapM g (seq (m - k) k) = Panic /\ exists i, nth_error (pstat e) i = Some WPanic)).
  { induction k as [|k IH]; intros Hk; [left; split; [reflexivity|lia]|].
    cbn [seq mapM]. replace (S (m - S k)) with (m - k)%nat by lia.
    destruct (Fin (m - S k)%nat ltac:(lia)) as [[line [E1 [E2 E3]]]|[E1 E2]].
    - rewrite E1. cbn [bind]. destruct IH as [[I1 I2]|[I1 I2]]; [lia| |].
      + left. rewrite I1. cbn [bind map]. rewrite E3. split; [reflexivity|].
        intros i Hi. destruct (Nat.eq_dec i (m - S k)); [subst; assumption|apply I2; lia].
      + right. rewrite I1. split; [reflexivity|assumption].
    - right. rewrite E1. split; [reflexivity|eauto]. }
  destruct (Seq m (le_n m)) as [[S1 S2]|[S1 [i S2]]]; rewrite Nat.sub_diag in S1; rewrite S1; cbn [bind].
  - split.
    + destruct (chunks_spec n (pmem e) Hn) as [Hp _].
      assert (Hm : length (chunks n (pmem e)) = m).
      { destruct (chunks_spec n (pmem e) Hn) as [_ [P1 P2]]. rewrite A1 in P1, P2. clear - P1 P2 Hc1 Hc2 Hn.
        set (a := length (chunks n (pmem e))) in *.
        destruct (Nat.lt_trichotomy a m) as [H|[H|H]]; [|assumption|]; exfalso.
        - assert ((a + 1) * n <= m * n)%nat by (apply Nat.mul_le_mono_r; lia). lia.
        - assert ((m + 1) * n <= a * n)%nat by (apply Nat.mul_le_mono_r; lia). lia. }
      rewrite Hm in Hp. rewrite <- Hp.
      assert (CC : forall k (l : list Z), (length l <= k)%nat -> concat (chunks n l) = l).
      { clear - Hn. induction k; intros l Hl; [destruct l; [reflexivity|cbn in Hl; lia]|].
        destruct l as [|x t]; [reflexivity|]. rewrite chunks_cons by (try assumption; discriminate).
        cbn [concat]. rewrite IHk by (rewrite skipn_length; cbn [length] in *; lia). apply firstn_skipn. }
      symmetry. apply (CC _ _ (le_n _)).
    + rewrite Forall_forall. intros r Hr. apply In_nth_error in Hr. destruct Hr as [i Hi].
      assert ((i < length (pstat e))%nat) by (apply nth_error_Some; congruence).
      rewrite S2 in Hi by lia. congruence.
  - apply Exists_exists. exists WPanic. split; [eapply nth_error_In; eassumption|reflexivity].
Qed.

Theorem decode_threaded_any_schedule : forall (L : Type) w h closure (ws : list (worker L)) sched,
  0 < w -> 0 <= h -> length ws = Z.to_nat h ->
  (forall wk, In wk ws -> keeps_length wk) ->
  (forall i wk, nth_error ws i = Some wk -> implements wk (zeros w) (closure (zeros w) (Z.of_nat i))) ->
  let e := par_run (Z.to_nat w) ws sched (par_init ws (zeros (w * h))) in
  Forall finished (pstat e) ->
  match decode_threaded w h closure with
  | Ok img => pmem e = img /\ Forall (fun r => r = WDone) (pstat e)
  | Panic => Exists (fun r => r = WPanic) (pstat e)
  | _ => False
  end.
Proof.
  intros L w h closure ws sched Hw Hh Hlen Hwl Himp e Hfin.
  assert (Hc : chunks (Z.to_nat w) (zeros (w * h)) = repeat (zeros w) (Z.to_nat h)).
  { unfold zeros. replace (Z.to_nat (w * h)) with (Z.to_nat w * Z.to_nat h)%nat by nia. apply chunks_repeat. lia. }
  unfold decode_threaded. replace (w =? 0) with false by lia.
  apply (for_each_any_schedule L (Z.to_nat w) (zeros (w * h)) closure ws sched); auto; [lia| |].
  - rewrite Hc, repeat_length. assumption.
  - intros i wk Hwk. replace (chunk_of (Z.to_nat w) i (zeros (w * h))) with (zeros w); [auto|].
    assert (Hi : (i < Z.to_nat h)%nat) by (rewrite <- Hlen; apply nth_error_Some; congruence).
    unfold chunk_of, zeros. rewrite skipn_repeat. symmetry. apply firstn_repeat_le. nia.
Qed.

Lemma mapM_ext_in : forall {A B} (f g : A -> res B) l, (forall x, In x l -> f x = g x) -> mapM f l = mapM g l.
Proof.
  induction l as [|a l IH]; intros H; [reflexivity|]. cbn. rewrite H by (left; reflexivity).
  rewrite IH by (intros; apply H; right; assumption). reflexivity.
Qed.
Theorem decode_multiline_any_schedule : forall (L : Type) w h k closure (ws : list (worker L)) sched,
  0 < w -> 0 < k -> 0 <= h ->
  let blank := fun i : nat => zeros (Z.min (w * k) (w * h - w * k * Z.of_nat i)) in
  length ws = Z.to_nat ((h + k - 1) / k) ->
  (forall wk, In wk ws -> keeps_length wk) ->
  (forall i wk, nth_error ws i = Some wk -> implements wk (blank i) (closure (blank i) (Z.of_nat i * k))) ->
  let e := par_run (Z.to_nat (w * k)) ws sched (par_init ws (zeros (w * h))) in
  Forall finished (pstat e) ->
  match decode_threaded_multiline w h k closure with
  | Ok img => pmem e = img /\ Forall (fun r => r = WDone) (pstat e)
  | Panic => Exists (fun r => r = WPanic) (pstat e)
  | _ => False
  end.
Proof.
  intros L w h k closure ws sched Hw Hk Hh blank Hlen Hwl Himp e Hfin.
  unfold decode_threaded_multiline. replace (w * k =? 0) with false by nia.
  set (n := Z.to_nat (w * k)) in *. assert (Hn : (0 < n)%nat) by (unfold n; nia).
  destruct (chunks_spec n (zeros (w * h)) Hn) as [_ [C1 C2]].
  assert (Lz : length (zeros (w * h)) = Z.to_nat (w * h)) by (unfold zeros; apply repeat_length).
  rewrite Lz in C1, C2.
  assert (Hm : length (chunks n (zeros (w * h))) = Z.to_nat ((h + k - 1) / k)).
  { set (a := length (chunks n (zeros (w * h)))) in *.
    assert (D1 : Z.of_nat a * (w * k) <= w * h + (w * k - 1)) by (unfold n in C1; nia).
    assert (D2 : w * h <= Z.of_nat a * (w * k)) by (unfold n in C2; nia).
    assert (E1 : h <= Z.of_nat a * k) by nia.
    assert (E2 : Z.of_nat a * k <= h + k - 1).
    { assert (w * (Z.of_nat a * k) < w * (h + k)) by nia. nia. }
    assert ((h + k - 1) / k = Z.of_nat a); [|lia].
    symmetry. apply (Z.div_unique_pos _ _ _ (h + k - 1 - k * Z.of_nat a)); nia. }
  pose proof (for_each_any_schedule L n (zeros (w * h)) (fun c i => closure c (i * k)) ws sched Hn) as G.
  unfold for_each_chunk in G. apply G; auto.
  - rewrite Hm. assumption.
  - intros i wk Hwk. assert (Hi : (i < Z.to_nat ((h + k - 1) / k))%nat) by (rewrite <- Hlen; apply nth_error_Some; congruence).
    replace (chunk_of n i (zeros (w * h))) with (blank i); [apply Himp; assumption|].
    unfold blank, chunk_of, zeros. rewrite skipn_repeat.
    assert (Q : w * k * Z.of_nat i <= w * h).
    { assert (Z.of_nat i * k <= h); [|nia]. assert (Z.of_nat i + 1 <= (h + k - 1) / k) by lia.
      pose proof (Z.mul_div_le (h + k - 1) k ltac:(lia)). nia. }
    replace (Z.to_nat (w * h) - i * n)%nat with (Z.to_nat (w * h - w * k * Z.of_nat i)) by (unfold n; nia).
    destruct (Nat.le_ge_cases n (Z.to_nat (w * h - w * k * Z.of_nat i))) as [H|H].
    + rewrite firstn_repeat_le by assumption. f_equal. unfold n in *. lia.
    + rewrite firstn_all2 by (rewrite repeat_length; assumption). f_equal. unfold n in *. lia.
Qed.
