(** Proofs about the shipped camera database: the computations. *)
From Coq Require Import String Ascii ZArith List Bool Lia FMapPositive.
From Verif Require Import Base Num F32 Cfa Camera CameraData Spec_Cfa Spec_Camera Spec_CameraData P_Base P_Cfa P_Camera P_Camera2 P_Camera3 P_CameraData.
Import ListNotations.
Local Open Scope Z_scope.
Local Open Scope string_scope.
Lemma shipped_check : forallb ct_fine shipped = true.
Proof. vm_compute. reflexivity. Qed.
Lemma shipped_fine : fine shipped.
Proof. apply fine_ok. exact shipped_check. Qed.
Lemma shipped_loads : exists l, loader_new shipped = Ok l.
Proof. apply load_ok. exact shipped_fine. Qed.

Lemma shipped_dups : dups (map key (declarations shipped)) (PositiveMap.empty unit) = repeated.
Proof. vm_compute. reflexivity. Qed.
Lemma shipped_keys : forall i j d d', i <> j -> nth_error (declarations shipped) i = Some d ->
  nth_error (declarations shipped) j = Some d' -> key d = key d' -> In (key d) repeated.
Proof.
  assert (G : forall i j d d', (i < j)%nat -> nth_error (declarations shipped) i = Some d ->
    nth_error (declarations shipped) j = Some d' -> key d = key d' -> In (key d) repeated).
  { intros i j d d' L Hi Hj K. rewrite <- shipped_dups. apply (dups_spec _ _ i j); [exact L | |].
    - rewrite nth_error_map, Hi. reflexivity.
    - rewrite nth_error_map, Hj. cbn. rewrite K. reflexivity. }
  intros i j d d' N Hi Hj K. destruct (Nat.lt_ge_cases i j) as [L | L]; [exact (G i j d d' L Hi Hj K) |].
  rewrite K. apply (G j i d' d); [lia | exact Hj | exact Hi | symmetry; exact K].
Qed.

(** ** The repeated ones *)
Definition same_key (a b : string * string * string) : bool :=
  String.eqb (snd (fst a)) (snd (fst b)) && String.eqb (fst (fst a)) (fst (fst b)) && String.eqb (snd a) (snd b).
Lemma same_key_eq : forall a b, same_key a b = true <-> a = b.
Proof.
  intros [[a b] c] [[a' b'] c']. unfold same_key. cbn. rewrite !andb_true_iff, !String.eqb_eq.
  split; [intros [[-> ->] ->]; reflexivity | intros H; injection H as -> -> ->; auto].
Qed.
Definition of_key (k : string * string * string) : list declaration := filter (fun d => same_key (key d) k) (declarations shipped).
Lemma of_key_in : forall k d, In d (of_key k) <-> In d (declarations shipped) /\ key d = k.
Proof. intros k d. unfold of_key. rewrite filter_In, same_key_eq. reflexivity. Qed.
Definition says (d : declaration) : string * Z :=
  let '(ct, m, (_, clean)) := d in (clean, number (attr ct m "whitepoint") mod 2 ^ 16).
Definition differ (k : string * string * string) : bool :=
  match of_key k with
  | [d; d'] => let '(a, x) := says d in let '(b, y) := says d' in negb (String.eqb a b && Z.eqb x y)
  | _ => false
  end.
Lemma shipped_differ : forallb differ (firstn 8 repeated) = true.
Proof. vm_compute. reflexivity. Qed.
Lemma Forall2_in_l : forall {A B} (P : A -> B -> Prop) l m a, Forall2 P l m -> In a l -> exists b, In b m /\ P a b.
Proof.
  intros A B P l m a F. induction F as [| x y l m H F IH]; intros I; [destruct I |].
  destruct I as [<- | I]; [exists y; split; [left; reflexivity | exact H] |].
  destruct (IH I) as [b [Ib Pb]]. exists b. split; [right; exact Ib | exact Pb].
Qed.
Lemma described : forall d, In d (declarations shipped) -> exists c, describes d c.
Proof.
  intros d I. destruct shipped_loads as [l L]. destruct (Forall2_in_l _ _ _ d (loader_spec shipped l (proj2 (proj2 (proj2 shipped_fine))) L) I) as [c [_ D]].
  exists c. exact D.
Qed.
Lemma describes_says : forall d c, describes d c -> c_clean_model c = fst (says d) /\ c_whites c = all4 (snd (says d)).
Proof. intros [[ct m] [mo cm]] c D. unfold describes in D. cbn. tauto. Qed.
Lemma shipped_conflicts : forall k, In k (firstn 8 repeated) -> exists d d' c c',
  In d (declarations shipped) /\ In d' (declarations shipped) /\ key d = k /\ key d' = k /\ describes d c /\ describes d' c' /\
  (c_clean_model c, c_whites c) <> (c_clean_model c', c_whites c').
Proof.
  intros k I. pose proof shipped_differ as H. rewrite forallb_forall in H. specialize (H k I). unfold differ in H.
  pose proof (of_key_in k) as O. destruct (of_key k) as [| d [| d' [| ? ?]]]; try discriminate.
  destruct (proj1 (O d) (or_introl eq_refl)) as [I1 K1]. destruct (proj1 (O d') (or_intror (or_introl eq_refl))) as [I2 K2].
  destruct (described d I1) as [c D1]. destruct (described d' I2) as [c' D2].
  exists d, d', c, c'. repeat (split; [assumption |]).
  destruct (describes_says _ _ D1) as [-> ->]. destruct (describes_says _ _ D2) as [-> ->].
  destruct (says d) as [a x], (says d') as [b y]. cbn. intros E. injection E as -> ->.
  rewrite String.eqb_refl, Z.eqb_refl in H. discriminate.
Qed.

(** Equal declarations. *)
Fixpoint value_eqb (v w : value) {struct v} : bool :=
  match v, w with
  | VStr s, VStr t => String.eqb s t
  | VInt n, VInt m => Z.eqb n m
  | VArr l, VArr l' => (fix go l l' := match l, l' with [], [] => true | a :: l, b :: l' => value_eqb a b && go l l' | _, _ => false end) l l'
  | VTable l, VTable l' => (fix go l l' := match l, l' with [], [] => true | (k, a) :: l, (k', b) :: l' => String.eqb k k' && value_eqb a b && go l l' | _, _ => false end) l l'
  | _, _ => false
  end.
Fixpoint value_eqb_eq (v : value) : forall w, value_eqb v w = true -> v = w.
Proof.
  destruct v as [s | n | l | l]; intros [t | m | l' | l'] H; cbn in H; try discriminate.
  - apply String.eqb_eq in H. congruence.
  - apply Z.eqb_eq in H. congruence.
  - f_equal. revert l' H. induction l as [| a l IH]; intros [| b l'] H; try discriminate; [reflexivity |].
    apply andb_true_iff in H. destruct H as [H1 H2]. f_equal; [apply value_eqb_eq, H1 | apply IH, H2].
  - f_equal. revert l' H. induction l as [| [k a] l IH]; intros [| [k' b] l'] H; try discriminate; [reflexivity |].
    apply andb_true_iff in H. destruct H as [H1 H2]. apply andb_true_iff in H1. destruct H1 as [H0 H1]. apply String.eqb_eq in H0.
    f_equal; [f_equal; [exact H0 | apply value_eqb_eq, H1] | apply IH, H2].
Qed.
Definition decl_eqb (d d' : declaration) : bool :=
  let '(ct, m, (a, b)) := d in let '(ct', m', (a', b')) := d' in
  value_eqb (VTable ct) (VTable ct') && value_eqb (VTable m) (VTable m') && String.eqb a a' && String.eqb b b'.
Lemma decl_eqb_eq : forall d d', decl_eqb d d' = true -> d = d'.
Proof.
  intros [[ct m] [a b]] [[ct' m'] [a' b']] H. unfold decl_eqb in H. rewrite !andb_true_iff in H.
  destruct H as [[[H1 H2] H3] H4]. apply value_eqb_eq in H1, H2. apply String.eqb_eq in H3, H4. congruence.
Qed.
Lemma shipped_twins : forallb (fun k => match of_key k with [d; d'] => decl_eqb d d' | _ => false end) (skipn 8 repeated) = true.
Proof. vm_compute. reflexivity. Qed.
Lemma shipped_same : forall d d', In d (declarations shipped) -> In d' (declarations shipped) -> key d = key d' ->
  In (key d) (skipn 8 repeated) -> d = d'.
Proof.
  intros d d' I I' K R. pose proof shipped_twins as H. rewrite forallb_forall in H. specialize (H _ R). cbv beta in H.
  assert (D : In d (of_key (key d))) by (apply of_key_in; auto).
  assert (D' : In d' (of_key (key d))) by (apply of_key_in; auto).
  destruct (of_key (key d)) as [| a [| b [| ? ?]]]; try discriminate. apply decl_eqb_eq in H.
  cbn in D, D'. destruct D as [<- | [<- | []]]; destruct D' as [<- | [<- | []]]; congruence.
Qed.

(** ** File sizes *)
Definition size_of (d : declaration) : Z := let '(ct, m, _) := d in size ct m "filesize".
Fixpoint apart (l : list Z) : bool := match l with [] => true | x :: t => negb (existsb (Z.eqb x) t) && apart t end.
Lemma apart_spec : forall l i j n, apart (filter (Z.ltb 0) l) = true -> 0 < n -> (i < j)%nat ->
  nth_error l i = Some n -> nth_error l j = Some n -> False.
Proof.
  induction l as [| x l IH]; intros i j n H Hn L Hi Hj; [destruct i; discriminate |].
  destruct j as [| j]; [lia |]. cbn [nth_error] in Hj. cbn [filter] in H. destruct i as [| i].
  - cbn in Hi. injection Hi as ->. replace (Z.ltb 0 n) with true in H by (symmetry; apply Z.ltb_lt; exact Hn).
    cbn [apart] in H. apply andb_true_iff in H. destruct H as [H _]. apply negb_true_iff in H.
    assert (E : existsb (Z.eqb n) (filter (Z.ltb 0) l) = true); [| congruence].
    apply existsb_exists. exists n. split; [| apply Z.eqb_refl]. apply filter_In. split; [apply (nth_error_In _ _ Hj) | apply Z.ltb_lt; exact Hn].
  - cbn [nth_error] in Hi. apply (IH i j n); try assumption; [| lia].
    destruct (Z.ltb 0 x); [| exact H]. cbn [apart] in H. apply andb_true_iff in H. apply H.
Qed.
Lemma shipped_apart : apart (filter (Z.ltb 0) (map size_of (declarations shipped))) = true.
Proof. vm_compute. reflexivity. Qed.
Lemma shipped_sizes : forall i j d d' n, 0 < n -> nth_error (declarations shipped) i = Some d ->
  nth_error (declarations shipped) j = Some d' -> says_size d n -> says_size d' n -> i = j.
Proof.
  intros i j d d' n Hn Hi Hj S S'.
  assert (E : nth_error (map size_of (declarations shipped)) i = Some n) by (rewrite nth_error_map, Hi; destruct d as [[? ?] ?]; exact (f_equal Some S)).
  assert (E' : nth_error (map size_of (declarations shipped)) j = Some n) by (rewrite nth_error_map, Hj; destruct d' as [[? ?] ?]; exact (f_equal Some S')).
  destruct (Nat.lt_trichotomy i j) as [L | [L | L]]; [exfalso | exact L | exfalso].
  - exact (apart_spec _ i j n shipped_apart Hn L E E').
  - exact (apart_spec _ j i n shipped_apart Hn L E' E).
Qed.
