(** Proofs about the camera database: loading and looking up. *)
From Coq Require Import String ZArith List Bool Lia.
From Coq Require Import ZifyBool ZifyNat.
From Flocq Require Import BinarySingleNaN.
From Verif Require Import Base Num F32 Cfa Transform Camera Spec_Camera P_Base P_Camera P_Camera2.
Import ListNotations.
Local Open Scope Z_scope.

Lemma Forall2_map_l : forall {A B C} (f : A -> B) (P : B -> C -> Prop) l m, Forall2 (fun a c => P (f a) c) l m -> Forall2 P (map f l) m.
Proof. intros A B C f P l m H. induction H; cbn; constructor; auto. Qed.
Lemma Forall2_concat : forall {A B C} (g : A -> list B) (P : B -> C -> Prop) l m,
  Forall2 (fun a c => Forall2 P (g a) c) l m -> Forall2 P (flat_map g l) (concat m).
Proof. intros A B C g P l m H. induction H; cbn; [constructor | apply Forall2_app; auto]. Qed.
Lemma Forall2_impl_in : forall {A B} (P Q : A -> B -> Prop) l m,
  Forall2 P l m -> (forall a b, In a l -> P a b -> Q a b) -> Forall2 Q l m.
Proof. intros A B P Q l m H. induction H; intros I; constructor; [apply I; [left; reflexivity | assumption] |]. apply IHForall2. intros a b Ia. apply I. right. exact Ia. Qed.

Lemma modes_spec : forall ct l, modes_of ct = Ok l -> ct :: l = modes ct.
Proof.
  intros ct l H. unfold modes_of in H. rewrite tget_written in H. unfold modes. f_equal.
  destruct (written ct "modes") as [v |]; [| inversion H; reflexivity].
  inv_bind H. apply as_array_inv in E. subst v. cbn [items].
  apply mapM_Ok_Forall2 in H. induction H as [| v t l' ts E _ IH]; [reflexivity |].
  apply as_table_inv in E. subst v. cbn [map]. f_equal. exact IH.
Qed.
Lemma aliases_spec : forall ct l, aliases_of ct = Ok l -> l = map alias_names (items (written ct "model_aliases")).
Proof.
  intros ct l H. unfold aliases_of in H. rewrite tget_written in H.
  destruct (written ct "model_aliases") as [v |]; [| inversion H; reflexivity].
  inv_bind H. apply as_array_inv in E. subst v. cbn [items].
  apply mapM_Ok_Forall2 in H. induction H as [| v t l' ts E _ IH]; [reflexivity |].
  cbn [map]. f_equal; [| exact IH]. unfold alias_of in E. inv_bind E. apply as_array_inv in E0. subst v.
  apply get_nth in E1, E3. apply as_str_inv in E2, E4. subst. unfold alias_names. cbn [items].
  change (Z.to_nat 0) with 0%nat in E1. change (Z.to_nat 1) with 1%nat in E3. rewrite E1, E3. inversion E. reflexivity.
Qed.

Lemma declared_spec : forall ct cams, declared ct = Ok cams -> (forall m, In m (modes ct) -> unique_keys m) ->
  Forall2 describes (declarations [ct]) cams.
Proof.
  intros ct cams H U. unfold declared in H. inv_bind H. apply Ok_inj in H. subst cams.
  rename x into ms, x0 into c0, x1 into c1, x2 into al, x3 into css.
  assert (Um : unique_keys ct) by (apply U; left; reflexivity).
  apply modes_spec in E. apply aliases_spec in E2. rewrite E in E3.
  rewrite (one_name ct c0 c1 E0 E1 Um) in E3. subst al. change (_ :: map alias_names _) with (names ct) in E3.
  unfold declarations. cbn [flat_map]. rewrite app_nil_r.
  apply Forall2_concat. apply mapM_Ok_Forall2 in E3.
  apply (Forall2_impl_in _ _ _ _ E3). intros [model clean] cs _ F.
  apply Forall2_map_l. apply mapM_Ok_Forall2 in F.
  apply (Forall2_impl_in _ _ _ _ F). intros m c Im G. apply bind_inv in G. destruct G as [c2 [G1 G2]].
  apply Ok_inj in G2. subst c. apply (two_describe ct m c0 c1 c2 E0 E1 G1 Um (U m Im)).
Qed.

Lemma loader_spec : forall db l, is_toml db -> loader_new db = Ok l -> Forall2 describes (declarations db) l.
Proof.
  intros db l T H. unfold loader_new in H. inv_bind H. apply Ok_inj in H. subst l.
  apply mapM_Ok_Forall2 in E. unfold declarations. apply Forall2_concat.
  apply (Forall2_impl_in _ _ _ _ E). intros ct cs I D.
  pose proof (declared_spec ct cs D (fun m Im => T ct m I Im)) as F.
  unfold declarations in F. cbn [flat_map] in F. rewrite app_nil_r in F. exact F.
Qed.

(** The last element with a property, in two lists that correspond. *)
Lemma find_last_spec : forall {A} (f : A -> bool) l,
  match find_last f l with
  | Some x => exists b a, l = b ++ x :: a /\ f x = true /\ forall y, In y a -> f y = false
  | None => forall y, In y l -> f y = false
  end.
Proof.
  intros A f l. unfold find_last.
  assert (G : forall r, match find f r with
    | Some x => exists b a, r = b ++ x :: a /\ f x = true /\ forall y, In y b -> f y = false
    | None => forall y, In y r -> f y = false end).
  { induction r as [| x r IH]; [intros y [] |]. cbn [find]. destruct (f x) eqn:F.
    - exists [], r. repeat split; [exact F | intros y []].
    - destruct (find f r) as [z |].
      + destruct IH as [b [a [-> [Fz Hb]]]]. exists (x :: b), a. repeat split; [exact Fz |].
        intros y [<- | I]; [exact F | apply Hb, I].
      + intros y [<- | I]; [exact F | apply IH, I]. }
  specialize (G (rev l)). destruct (find f (rev l)) as [z |].
  - destruct G as [b [a [E [Fz Hb]]]]. exists (rev a), (rev b). repeat split; [| exact Fz |].
    + rewrite <- (rev_involutive l), E, rev_app_distr. cbn [rev]. rewrite <- app_assoc. reflexivity.
    + intros y I. apply Hb. apply in_rev. exact I.
  - intros y I. apply G. apply in_rev. rewrite rev_involutive. exact I.
Qed.
Lemma find_last_rel : forall {A B} (P : A -> B -> Prop) (f : B -> bool) (K : A -> Prop) da l,
  Forall2 P da l -> (forall a b, P a b -> f b = true <-> K a) ->
  match find_last f l with
  | Some x => exists before d after, da = before ++ d :: after /\ P d x /\ K d /\ forall d', In d' after -> ~ K d'
  | None => forall d, In d da -> ~ K d
  end.
Proof.
  intros A B P f K da l F C. pose proof (find_last_spec f l) as S. destruct (find_last f l) as [x |].
  - destruct S as [b [a [-> [Fx Ha]]]]. apply Forall2_app_inv_r in F. destruct F as [d1 [d2 [_ [F2 ->]]]].
    inversion F2 as [| d x' dl l' Pd Fl]; subst. exists d1, d, dl.
    split; [reflexivity |]. split; [exact Pd |]. split; [apply (C _ _ Pd), Fx |].
    clear -Fl Ha C. induction Fl as [| d b dl l' Pd _ IH]; [intros d' [] |].
    intros d' [<- | I].
    + intro Kd. apply (C _ _ Pd) in Kd. rewrite (Ha b (or_introl eq_refl)) in Kd. discriminate.
    + apply IH; [intros y Iy; apply Ha; right; exact Iy | exact I].
  - induction F as [| d b dl l' Pd _ IH]; [intros d [] |].
    intros d' [<- | I].
    + intro Kd. apply (C _ _ Pd) in Kd. rewrite (S b (or_introl eq_refl)) in Kd. discriminate.
    + apply IH; [intros y Iy; apply S; right; exact Iy | exact I].
Qed.

Lemma key_spec : forall d c make model mode, describes d c -> is_camera make model mode c = true <-> key d = (make, model, mode).
Proof.
  intros [[ct m] [mo cm]] c make model mode D. unfold describes in D. destruct D as [D1 [D2 [D3 _]]].
  unfold is_camera, key. rewrite D1, D2, D3. cbn [fst].
  rewrite !andb_true_iff, !String.eqb_eq. split; [intros [[-> ->] ->]; reflexivity | intros H; inversion H; auto].
Qed.
Lemma lookup_spec : forall db l make model mode, is_toml db -> loader_new db = Ok l ->
  match find_camera l make model mode with
  | Some c => exists before d after, declarations db = before ++ d :: after /\ describes d c /\
                key d = (make, model, mode) /\ forall d', In d' after -> key d' <> (make, model, mode)
  | None => forall d, In d (declarations db) -> key d <> (make, model, mode)
  end.
Proof.
  intros db l make model mode T H. pose proof (loader_spec db l T H) as F.
  exact (find_last_rel describes _ (fun d => key d = (make, model, mode)) _ _ F (fun d c D => key_spec d c make model mode D)).
Qed.
Lemma naked_spec : forall db l n, is_toml db -> loader_new db = Ok l -> 0 < n ->
  match find_naked l n with
  | Some c => exists before d after, declarations db = before ++ d :: after /\ describes d c /\
                says_size d n /\ forall d', In d' after -> ~ says_size d' n
  | None => forall d, In d (declarations db) -> ~ says_size d n
  end.
Proof.
  intros db l n T H Hn. pose proof (loader_spec db l T H) as F. unfold find_naked.
  refine (find_last_rel describes _ (fun d => says_size d n) _ _ F _).
  intros [[ct m] [mo cm]] c D. unfold describes in D. destruct D as [_ [_ [_ [_ [_ [D _]]]]]].
  unfold says_size. rewrite <- D. lia.
Qed.
Lemma key_found : forall db l d make model mode, is_toml db -> loader_new db = Ok l -> In d (declarations db) ->
  key d = (make, model, mode) -> exists c, check_supported_with_everything l make model mode = Ok c /\
    c_make c = make /\ c_model c = model /\ c_mode c = mode.
Proof.
  intros db l d make model mode T H I K. pose proof (lookup_spec db l make model mode T H) as S.
  unfold check_supported_with_everything. destruct (find_camera l make model mode) as [c |] eqn:E.
  - exists c. split; [reflexivity |]. destruct S as [_ [d1 [_ [_ [D [K1 _]]]]]].
    apply (key_spec _ _ make model mode D) in K1. unfold is_camera in K1.
    rewrite !andb_true_iff, !String.eqb_eq in K1. tauto.
  - exfalso. exact (S d I K).
Qed.
