(** Partial correctness: what holds of a result if there is one. *)
From Coq Require Import ZArith List Bool Lia ZifyBool ZifyNat.
From Verif Require Import Base Bytes Threads Lookup Packed Ljpeg Mos Spec_Bits P_Base P_Threads.
Import ListNotations.
Local Open Scope Z_scope.

(** Partial correctness *)
Definition always {A} (P : A -> Prop) (r : res A) : Prop := forall v, r = Ok v -> P v.
Lemma always_bind : forall {A B} (P : B -> Prop) (x : res A) (k : A -> res B), (forall a, x = Ok a -> always P (k a)) -> always P (bind x k).
Proof. intros A B P x k H v E. apply bind_inv in E. destruct E as [a [Ea Ek]]. exact (H a Ea v Ek). Qed.
Lemma always_Err : forall {A} (P : A -> Prop) m, always P (Err m). Proof. intros A P m v H. discriminate. Qed.
Lemma always_Panic : forall {A} (P : A -> Prop), always P Panic. Proof. intros A P v H. discriminate. Qed.
Lemma always_Ok : forall {A} (P : A -> Prop) a, P a -> always P (Ok a). Proof. intros A P a H v E. assert (a = v) by congruence. subst. exact H. Qed.
Ltac al1 := cbv zeta; match goal with
  | |- always _ (Err _) => apply always_Err
  | |- always _ Panic => apply always_Panic
  | |- always _ (bind _ _) => apply always_bind; intros ? ?
  | |- always _ (if ?b then _ else _) => destruct b eqn:?
  | |- always _ (match ?x with _ => _ end) => destruct x eqn:?
  end.
Ltac al := repeat al1.


Lemma always_Loop : forall {A} (P : A -> Prop), always P Loop. Proof. intros A P v H. discriminate. Qed.
Lemma always_bindP : forall {A B} (Q : A -> Prop) (P : B -> Prop) (x : res A) (k : A -> res B),
  always Q x -> (forall a, Q a -> always P (k a)) -> always P (bind x k).
Proof. intros A B Q P x k HQ HP v E. apply bind_inv in E. destruct E as [a [Ea Ek]]. exact (HP a (HQ a Ea) v Ek). Qed.
Lemma always_imp : forall {A} (Q P : A -> Prop) r, always Q r -> (forall a, Q a -> P a) -> always P r.
Proof. intros A Q P r H I v E. apply I, H, E. Qed.
Lemma always_rfold : forall {A S} (I : S -> Prop) (f : A -> S -> res S) xs s, (forall x s, In x xs -> I s -> always I (f x s)) -> I s -> always I (rfold f xs s).
Proof.
  intros A S I f xs. induction xs as [|x t IH]; intros s F H; [apply always_Ok; exact H|]. cbn [rfold]. apply (always_bindP I); [apply F; [left; reflexivity|exact H]|].
  intros a Ha. apply IH; [|exact Ha]. intros y s' Hy. apply F. right. exact Hy.
Qed.
Lemma always_mapM : forall {A B} (P : B -> Prop) (f : A -> res B) xs, (forall x, In x xs -> always P (f x)) -> always (Forall P) (mapM f xs).
Proof.
  intros A B P f xs. induction xs as [|x t IH]; intros F; [apply always_Ok; constructor|]. cbn [mapM]. apply (always_bindP P); [apply F; left; reflexivity|].
  intros a Ha. apply (always_bindP (Forall P)); [apply IH; intros y Hy; apply F; right; exact Hy|]. intros r Hr. apply always_Ok. constructor; assumption.
Qed.
Lemma always_unwrap : forall {A} (P : A -> Prop) r, always P r -> always P (unwrap r).
Proof. intros A P r H v E. apply H. destruct r; cbn in E; congruence. Qed.

(** [n] samples *)
Definition pic (n : Z) (l : list Z) : Prop := zlen l = n /\ Forall sample l.
Lemma sample_u16 : forall v, sample (as_u16 v). Proof. intros v. unfold sample, as_u16. apply Z.mod_pos_bound. lia. Qed.
Lemma pic_zeros : forall n, 0 <= n -> pic n (zeros n).
Proof.
  intros n H. split; [unfold zlen, zeros; rewrite repeat_length; lia|]. unfold zeros. apply Forall_forall. intros x I. apply repeat_spec in I. subst. unfold sample. lia.
Qed.
Lemma pic_upd : forall n l i v, pic n l -> sample v -> always (pic n) (upd l i v).
Proof.
  intros n l i v [L F] S r E. split; [|eapply upd_Forall; eassumption]. rewrite <- L. apply upd_inv in E. destruct E as [_ ->]. unfold zlen. rewrite upd_nat_length. reflexivity.
Qed.
Lemma get_all : forall {A} (P : A -> Prop) l i, Forall P l -> always P (get l i).
Proof. intros A P l i F v E. apply get_ok_inv in E. destruct E as [_ E]. rewrite Forall_forall in F. apply F. eapply nth_error_In. exact E. Qed.
Lemma pic_get : forall n l i, pic n l -> always sample (get l i).
Proof. intros n l i [L F]. apply get_all. exact F. Qed.
Lemma pic_app : forall n m a b, pic n a -> pic m b -> pic (n + m) (a ++ b).
Proof. intros n m a b [L F] [L' F']. split; [rewrite zlen_app; lia|]. apply Forall_app. split; assumption. Qed.
Lemma pic_store : forall vs n o i, pic n o -> Forall sample vs -> always (pic n) (store o i vs).
Proof.
  induction vs as [|v t IH]; intros n o i P F; [apply always_Ok; exact P|]. cbn [store]. inversion F; subst. apply (always_bindP (pic n)); [apply pic_upd; assumption|].
  intros a Ha. apply IH; assumption.
Qed.
Lemma samples_u16 : forall l, Forall sample (map as_u16 l).
Proof. intros l. apply Forall_map, Forall_forall. intros x _. apply sample_u16. Qed.
Lemma pic_slice : forall n l a b, pic n l -> always (Forall sample) (slice l a b).
Proof. intros n l a b [_ F] r E. apply slice_inv in E. destruct E as (_ & _ & ->). apply Forall_firstn, Forall_skipn. exact F. Qed.
Lemma pic_copy_at : forall n out a b line, pic n out -> Forall sample line -> always (pic n) (copy_at out a b line).
Proof.
  intros n out a b line [L F] G r E. unfold copy_at in E. apply bind_inv in E. destruct E as [x [Ex E]]. apply slice_inv in Ex. destruct Ex as (H1 & H2 & _).
  destruct (zlen line =? b - a) eqn:Z; [|discriminate]. injection E as <-. split.
  - rewrite !zlen_app. unfold zlen in *. rewrite firstn_length, skipn_length. lia.
  - apply Forall_app. split; [apply Forall_firstn; exact F|]. apply Forall_app. split; [exact G|apply Forall_skipn; exact F].
Qed.
Lemma dither_sample : forall {M : Mode} t v r, always (fun '(x, _) => sample x) (dither t v r).
Proof.
  intros. unfold dither. apply always_bind. intros [[c b] d] _. do 5 (apply always_bind; intros ? _). apply always_Ok. apply sample_u16.
Qed.

(** Pieces *)
Lemma chunks_concat : forall {A} n (l : list A), (0 < n)%nat -> concat (chunks n l) = l.
Proof.
  intros A n l Hn. remember (length l) as k eqn:E. revert l E. induction k as [k IH] using lt_wf_ind. intros l E. destruct l as [|x t]; [reflexivity|].
  rewrite chunks_cons by (assumption || discriminate). cbn [concat]. rewrite (IH (length (skipn n (x :: t)))) by (try reflexivity; subst; rewrite skipn_length; cbn [length]; lia).
  apply firstn_skipn.
Qed.
Lemma chunks_all : forall {A} (P : A -> Prop) n l, (0 < n)%nat -> Forall P l -> Forall (Forall P) (chunks n l).
Proof.
  intros A P n l Hn F. rewrite <- (chunks_concat n l Hn) in F. apply Forall_forall. intros c I. apply Forall_forall. intros x Ix. rewrite Forall_forall in F. apply F. apply in_concat. exists c. split; assumption.
Qed.
Lemma enumerate_In : forall {A} (l : list A) i x, In (i, x) (enumerate l) -> 0 <= i /\ In x l.
Proof. intros A l i x H. unfold enumerate in H. split; [apply in_combine_l, zrange_In in H; lia|apply in_combine_r in H; exact H]. Qed.
Lemma same_length_concat : forall (ls ls' : list (list Z)), Forall2 (fun a b => length b = length a) ls ls' -> length (concat ls') = length (concat ls).
Proof. intros ls ls' F. induction F; [reflexivity|]. cbn [concat]. rewrite !app_length. lia. Qed.
Lemma combine_same : forall {A B} (f : Z * A -> res B) (ks : list Z) (l : list A) (R : A -> B -> Prop), length ks = length l ->
  (forall k x, In (k, x) (combine ks l) -> always (R x) (f (k, x))) -> always (Forall2 R l) (mapM f (combine ks l)).
Proof.
  intros A B f ks. induction ks as [|k ks IH]; intros l R L F; destruct l as [|x t]; try discriminate L; [apply always_Ok; constructor|].
  cbn [combine mapM]. apply (always_bindP (R x)); [apply F; left; reflexivity|]. intros a Ha. apply (always_bindP (Forall2 R t)).
  - apply IH; [cbn in L; lia|]. intros k' x' I. apply F. right. exact I.
  - intros r Hr. apply always_Ok. constructor; assumption.
Qed.
Lemma pieces_pic : forall N n (f : Z * list Z -> res (list Z)) out, (0 < n)%nat -> pic N out ->
  (forall m line row, 0 <= row -> pic m line -> always (pic m) (f (row, line))) ->
  always (pic N) (ls <- mapM f (enumerate (chunks n out)) ;; Ok (concat ls)).
Proof.
  intros N n f out Hn [L F] H. apply (always_bindP (Forall2 (fun a b => length b = length a /\ Forall sample b) (chunks n out))).
  - unfold enumerate. apply combine_same; [unfold zlen; rewrite zrange_length; lia|]. intros k x I. pose proof (in_combine_l _ _ _ _ I) as I1. pose proof (in_combine_r _ _ _ _ I) as I2.
    apply zrange_In in I1. eapply always_imp; [apply (H (zlen x) x k); [lia|]|].
    + split; [reflexivity|]. pose proof (chunks_all sample n out Hn F) as G. rewrite Forall_forall in G. apply G. exact I2.
    + intros a [La Fa]. split; [unfold zlen in La; lia|exact Fa].
  - intros ls G. apply always_Ok. split.
    + rewrite <- L. unfold zlen. rewrite (same_length_concat (chunks n out) ls); [rewrite chunks_concat by exact Hn; reflexivity|].
      clear -G. induction G; constructor; tauto.
    + clear -G. induction G; cbn [concat]; [constructor|]. apply Forall_app. tauto.
Qed.
Lemma threaded_pic : forall w h (f : list Z -> Z -> res (list Z)), 0 <= w -> 0 <= h ->
  (forall m line row, 0 <= row -> pic m line -> always (pic m) (f line row)) -> always (pic (w * h)) (decode_threaded w h f).
Proof.
  intros w h f W H F. unfold decode_threaded. cbv zeta. destruct (w =? 0) eqn:E; [apply always_Panic|].
  apply (pieces_pic (w * h) (Z.to_nat w) (fun '(row, line) => f line row)); [lia|apply pic_zeros; nia|]. intros m line row R P. apply F; assumption.
Qed.
Lemma multiline_pic : forall w h n (f : list Z -> Z -> res (list Z)), 0 <= w -> 0 <= h -> 0 <= n ->
  (forall m line row, 0 <= row -> pic m line -> always (pic m) (f line row)) -> always (pic (w * h)) (decode_threaded_multiline w h n f).
Proof.
  intros w h n f W H N F. unfold decode_threaded_multiline. cbv zeta. destruct (w * n =? 0) eqn:E; [apply always_Panic|].
  apply (pieces_pic (w * h) (Z.to_nat (w * n)) (fun '(row, line) => f line (row * n))); [nia|apply pic_zeros; nia|]. intros m line row R P. apply F; [nia|exact P].
Qed.

(** The tactics *)
Create HintDb shape.
#[global] Hint Resolve pic_upd pic_store pic_copy_at sample_u16 samples_u16 dither_sample : shape.
Ltac pairs := repeat match goal with x : (_ * _)%type |- _ => destruct x end; cbv beta iota in *.
Ltac sh1 := cbv beta zeta iota; match goal with
  | |- always _ (Err _) => apply always_Err
  | |- always _ Panic => apply always_Panic
  | |- always _ Loop => apply always_Loop
  | |- always _ (Ok _) => apply always_Ok; eauto 4 with shape nocore
  | |- always _ (bind (get ?l _) _) => match goal with H : pic _ l |- _ => apply (always_bindP sample); [exact (pic_get _ _ _ H)|intros ? ?] end
  | |- always _ (bind (rfold _ _ _) _) => fail 1
  | |- always _ (bind _ _) => eapply always_bindP; [solve [eauto 4 with shape nocore]|intros ? ?; pairs]
  | |- always _ (bind _ _) => apply always_bind; intros ? _; pairs
  | |- always _ (if ?b then _ else _) => destruct b eqn:?
  | |- always _ (match ?x with _ => _ end) => destruct x eqn:?
  | |- always _ _ => solve [eauto 4 with shape nocore]
  end.
Ltac sh := repeat sh1.
(** Past a loop that is of no interest *)
Ltac skip := apply always_bind; intros ? _; pairs.
