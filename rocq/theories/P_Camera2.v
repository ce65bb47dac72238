(** Proofs about the camera database: arrays, and the cameras of a declaration. *)
From Coq Require Import String ZArith List Bool Lia.
From Coq Require Import ZifyBool ZifyNat.
From Flocq Require Import BinarySingleNaN.
From Verif Require Import Base Num F32 Cfa Transform Camera Spec_Camera P_Base P_Camera.
Import ListNotations.
Local Open Scope Z_scope.

Lemma Ok_inj : forall {A} (a b : A), Ok a = Ok b -> a = b.
Proof. intros A a b H; congruence. Qed.

Section Each.
Context {X Y : Type} (rd : X -> Z -> Y) (conv : Z -> Y) (f : Z -> value -> X -> res X) (N : Z).
Hypothesis stp : forall i v x x', 0 <= i -> f i v x = Ok x' ->
  exists n, v = VInt n /\ forall j, 0 <= j < N -> rd x' j = if j =? i then conv n else rd x j.
Lemma each_spec : forall l i x x', 0 <= i -> each f i l x = Ok x' ->
  forall j, 0 <= j < N ->
  rd x' j = if j <? i then rd x j else
            match nth_error l (Z.to_nat (j - i)) with Some (VInt n) => conv n | _ => rd x j end.
Proof.
  induction l as [| v l IH]; intros i x x' Hi H j Hj.
  - inversion H; subst. destruct (j <? i); [reflexivity |]. destruct (Z.to_nat (j - i)); reflexivity.
  - cbn [each] in H. apply bind_inv in H. destruct H as [x1 [E H]].
    destruct (stp _ _ _ _ Hi E) as [n [-> Sn]].
    rewrite (IH _ _ _ (ltac:(lia) : 0 <= i + 1) H j Hj), (Sn j Hj).
    destruct (Z.ltb_spec j i) as [L | L]; destruct (Z.ltb_spec j (i + 1)) as [L1 | L1]; try lia.
    + replace (j =? i) with false by lia. reflexivity.
    + replace (j =? i) with true by lia. replace (j - i) with 0 by lia. reflexivity.
    + replace (j =? i) with false by lia. replace (Z.to_nat (j - i)) with (S (Z.to_nat (j - (i + 1)))) by lia. reflexivity.
Qed.
End Each.

Lemma crops_spec : forall c v c', crops_of c v = Ok c' ->
  forall j, 0 <= j < 4 ->
  at4 c' j = match nth_error (items (Some v)) (Z.to_nat j) with Some (VInt n) => n mod 2 ^ 64 | _ => at4 c j end.
Proof.
  intros c v c' H j Hj. unfold crops_of in H. apply bind_inv in H. destruct H as [l [E H]].
  apply as_array_inv in E. subst v. cbn [items].
  match type of H with each ?f _ _ _ = _ => pose proof (each_spec at4 (fun n => n mod 2 ^ 64) f 4) as L end.
  rewrite (fun S => L S _ 0 _ _ ltac:(discriminate) H j Hj).
  { replace (j <? 0) with false by lia. rewrite Z.sub_0_r. reflexivity. }
  clear. intros i v x x' Hi H. apply bind_inv in H. destruct H as [n [E H]].
  apply as_integer_inv in E. subst v. exists n. split; [reflexivity |]. intros j Hj.
  unfold set4 in H.
  destruct (Z.eqb_spec i 0); [| destruct (Z.eqb_spec i 1); [| destruct (Z.eqb_spec i 2); [| destruct (Z.eqb_spec i 3); [| discriminate]]]];
    inversion H; subst; assert (J : j = 0 \/ j = 1 \/ j = 2 \/ j = 3) by lia;
    destruct J as [-> | [-> | [-> | ->]]]; reflexivity.
Qed.

Definition at12 {A} (m : vec4 (vec3 A)) (j : Z) : A := at3 (at4 m (j / 3)) (j mod 3).
Lemma matrix_spec : forall m v m', matrix_of m v = Ok m' ->
  forall j, 0 <= j < 12 ->
  at12 m' j = match nth_error (items (Some v)) (Z.to_nat j) with Some (VInt n) => f32_of n | _ => at12 m j end.
Proof.
  intros c v c' H j Hj. unfold matrix_of in H. apply bind_inv in H. destruct H as [l [E H]].
  apply as_array_inv in E. subst v. cbn [items].
  match type of H with each ?f _ _ _ = _ => pose proof (each_spec at12 f32_of f 12) as L end.
  rewrite (fun S => L S _ 0 _ _ ltac:(discriminate) H j Hj).
  - replace (j <? 0) with false by lia. rewrite Z.sub_0_r. reflexivity.
  - clear. intros i v x x' Hi H. apply bind_inv in H. destruct H as [row [E1 H]].
    apply bind_inv in H. destruct H as [n [E H]]. apply bind_inv in H. destruct H as [row' [E2 H]].
    apply as_integer_inv in E. subst v. exists n. split; [reflexivity |]. intros j Hj.
    assert (M3 : 0 <= i mod 3 < 3) by (apply Z.mod_pos_bound; lia).
    assert (Q : i = 3 * (i / 3) + i mod 3) by (apply Z.div_mod; lia).
    unfold at12. replace (j =? i) with ((j / 3 =? i / 3) && (j mod 3 =? i mod 3)).
    2:{ assert (Qj : j = 3 * (j / 3) + j mod 3) by (apply Z.div_mod; lia).
        destruct (Z.eqb_spec (j / 3) (i / 3)), (Z.eqb_spec (j mod 3) (i mod 3)), (Z.eqb_spec j i); cbn; try reflexivity; subst; lia. }
    assert (M3j : 0 <= j mod 3 < 3) by (apply Z.mod_pos_bound; lia).
    assert (Dj : 0 <= j / 3 < 4) by (split; [apply Z.div_pos; lia | apply Z.div_lt_upper_bound; lia]).
    remember (i / 3) as a. remember (i mod 3) as b. remember (j / 3) as a'. remember (j mod 3) as b'.
    clear - E1 E2 H M3 M3j Dj.
    assert (A : a = 0 \/ a = 1 \/ a = 2 \/ a = 3).
    { unfold get4 in E1. destruct (Z.eqb_spec a 0), (Z.eqb_spec a 1), (Z.eqb_spec a 2), (Z.eqb_spec a 3); auto; discriminate. }
    assert (B : b = 0 \/ b = 1 \/ b = 2) by lia.
    assert (J : a' = 0 \/ a' = 1 \/ a' = 2 \/ a' = 3) by lia.
    assert (K : b' = 0 \/ b' = 1 \/ b' = 2) by lia.
    destruct A as [-> | [-> | [-> | ->]]]; cbn [get4 Z.eqb Pos.eqb] in E1; apply Ok_inj in E1; subst row;
      cbn [set4 Z.eqb Pos.eqb] in H; apply Ok_inj in H; subst x';
      destruct B as [-> | [-> | ->]]; cbn [set3 Z.eqb Pos.eqb] in E2; apply Ok_inj in E2; subst row';
      destruct J as [-> | [-> | [-> | ->]]]; destruct K as [-> | [-> | ->]]; reflexivity.
Qed.

Lemma vec4_ext : forall (a b : vec4 Z), (forall j, 0 <= j < 4 -> at4 a j = at4 b j) -> a = b.
Proof.
  intros [a0 a1 a2 a3] [b0 b1 b2 b3] H.
  pose proof (H 0 ltac:(lia)) as H0. pose proof (H 1 ltac:(lia)) as H1.
  pose proof (H 2 ltac:(lia)) as H2. pose proof (H 3 ltac:(lia)) as H3.
  cbn in H0, H1, H2, H3. congruence.
Qed.
Lemma matrix_ext : forall {A} (a b : vec4 (vec3 A)), (forall j, 0 <= j < 12 -> at12 a j = at12 b j) -> a = b.
Proof.
  intros A [[a0 a1 a2] [a3 a4 a5] [a6 a7 a8] [a9 a10 a11]] [[b0 b1 b2] [b3 b4 b5] [b6 b7 b8] [b9 b10 b11]] H.
  pose proof (H 0 ltac:(lia)) as H0. pose proof (H 1 ltac:(lia)) as H1.
  pose proof (H 2 ltac:(lia)) as H2. pose proof (H 3 ltac:(lia)) as H3.
  pose proof (H 4 ltac:(lia)) as H4. pose proof (H 5 ltac:(lia)) as H5.
  pose proof (H 6 ltac:(lia)) as H6. pose proof (H 7 ltac:(lia)) as H7.
  pose proof (H 8 ltac:(lia)) as H8. pose proof (H 9 ltac:(lia)) as H9.
  pose proof (H 10 ltac:(lia)) as H10. pose proof (H 11 ltac:(lia)) as H11.
  cbn in H0, H1, H2, H3, H4, H5, H6, H7, H8, H9, H10, H11. congruence.
Qed.

Section Two.
Variables (ct m : table) (c0 c1 c2 : camera).
Hypothesis N0 : camera_new = Ok c0.
Hypothesis U1 : update_from_toml c0 ct = Ok c1.
Hypothesis U2 : update_from_toml c1 m = Ok c2.
Hypothesis K1 : unique_keys ct.
Hypothesis K2 : unique_keys m.

(** A field that one value replaces. *)
Lemma replaced : forall {X} (proj : camera -> X) k (g : value -> res X) (h : option value -> X),
  (forall name val c c', set_attr name val c = Ok c' ->
     if String.eqb name k then g val = Ok (proj c') else proj c' = proj c) ->
  (forall v x, g v = Ok x -> x = h (Some v)) -> proj c0 = h None -> proj c2 = h (attr ct m k).
Proof.
  intros X proj k g h S G Z0.
  pose proof (update_field proj k (fun v _ => g v) S _ _ _ U2 K2) as A2.
  pose proof (update_field proj k (fun v _ => g v) S _ _ _ U1 K1) as A1.
  unfold attr. destruct (written m k); [apply G; exact A2 |]. rewrite A2.
  destruct (written ct k); [apply G; exact A1 |]. rewrite A1. exact Z0.
Qed.
Ltac at_new := pose proof N0 as N1; unfold camera_new in N1; apply bind_inv in N1; destruct N1 as [f0 [F0 N1]];
  apply Ok_inj in N1; subst c0; cbn [c_make c_model c_mode c_clean_make c_clean_model c_filesize c_raw_width c_raw_height c_orientation
       c_whites c_blacks c_blackareah c_blackareav c_xyz_to_cam c_cfa c_crops c_bps c_wb_offset c_hints].

Lemma str_spec : forall v x, as_str v = Ok x -> x = text (Some v).
Proof. intros v x H. apply as_str_inv in H. subst v. reflexivity. Qed.
Lemma int_spec : forall v x, (n <- as_integer v ;; Ok (as_u64 n)) = Ok x -> x = number (Some v) mod 2 ^ 64.
Proof. intros v x H. apply bind_inv in H. destruct H as [n [E H]]. apply as_integer_inv in E. subst v. inversion H. reflexivity. Qed.
Lemma level_spec : forall v x, (n <- as_integer v ;; Ok (all4 (as_u16 n))) = Ok x -> x = all4 (number (Some v) mod 2 ^ 16).
Proof. intros v x H. apply bind_inv in H. destruct H as [n [E H]]. apply as_integer_inv in E. subst v. inversion H. reflexivity. Qed.
Lemma get_nth : forall {A} (l : list A) i x, get l i = Ok x -> nth_error l (Z.to_nat i) = Some x.
Proof.
  intros A l i x H. unfold get in H. destruct ((0 <=? i) && (i <? zlen l)); [| discriminate].
  destruct (nth_error l (Z.to_nat i)); congruence.
Qed.
Lemma area_spec : forall v x, area_of v = Ok x ->
  x = (number (nth_error (items (Some v)) 0) mod 2 ^ 64, number (nth_error (items (Some v)) 1) mod 2 ^ 64).
Proof.
  intros v x H. unfold area_of in H. inv_bind H. apply as_array_inv in E. subst v.
  apply get_nth in E0, E2. apply as_integer_inv in E1, E3. subst. cbn [items].
  change (Z.to_nat 0) with 0%nat in E0. change (Z.to_nat 1) with 1%nat in E2. rewrite E0, E2. inversion H. reflexivity.
Qed.
Lemma hints_map : forall l x, mapM as_str l = Ok x -> x = map (fun v => text (Some v)) l.
Proof.
  induction l as [| v l IH]; intros x H; [inversion H; reflexivity |].
  cbn [mapM] in H. inv_bind H. apply as_str_inv in E. subst v. rewrite (IH _ E0) in H. inversion H. reflexivity.
Qed.

Lemma two_describe : forall model clean_model,
  describes (ct, m, (model, clean_model)) (set_clean_model clean_model (set_model model c2)).
Proof.
  intros model clean_model. unfold describes.
  cbn [set_clean_model set_model c_make c_model c_mode c_clean_make c_clean_model c_filesize c_raw_width c_raw_height c_orientation
       c_whites c_blacks c_blackareah c_blackareav c_xyz_to_cam c_cfa c_crops c_bps c_wb_offset c_hints].
  split; [| split; [| split; [| split; [| split; [| split; [| split; [| split; [| split; [| split; [| split; [| split; [| split; [| split; [| split; [| split; [| split; [| split]]]]]]]]]]]]]]]]].
  - apply (replaced c_make "make" as_str text step_make str_spec). at_new. reflexivity.
  - reflexivity.
  - apply (replaced c_mode "mode" as_str text step_mode str_spec). at_new. reflexivity.
  - apply (replaced c_clean_make "clean_make" as_str text step_clean_make str_spec). at_new. reflexivity.
  - reflexivity.
  - apply (replaced c_filesize "filesize" _ (fun o => number o mod 2 ^ 64) step_filesize int_spec). at_new. reflexivity.
  - apply (replaced c_raw_width "raw_width" _ (fun o => number o mod 2 ^ 64) step_raw_width int_spec). at_new. reflexivity.
  - apply (replaced c_raw_height "raw_height" _ (fun o => number o mod 2 ^ 64) step_raw_height int_spec). at_new. reflexivity.
  - apply (replaced c_bps "bps" _ (fun o => number o mod 2 ^ 64) step_bps int_spec). at_new. reflexivity.
  - apply (replaced c_wb_offset "wb_offset" _ (fun o => number o mod 2 ^ 64) step_wb_offset int_spec). at_new. reflexivity.
  - apply (replaced c_whites "whitepoint" _ (fun o => all4 (number o mod 2 ^ 16)) step_whites level_spec). at_new. reflexivity.
  - apply (replaced c_blacks "blackpoint" _ (fun o => all4 (number o mod 2 ^ 16)) step_blacks level_spec). at_new. reflexivity.
  - apply (replaced c_blackareah "blackareah" _ (fun o => (number (nth_error (items o) 0) mod 2 ^ 64, number (nth_error (items o) 1) mod 2 ^ 64)) step_blackareah area_spec). at_new. reflexivity.
  - apply (replaced c_blackareav "blackareav" _ (fun o => (number (nth_error (items o) 0) mod 2 ^ 64, number (nth_error (items o) 1) mod 2 ^ 64)) step_blackareav area_spec). at_new. reflexivity.
  - pose proof (update_field c_xyz_to_cam "color_matrix" (fun v x => matrix_of x v) step_xyz_to_cam _ _ _ U2 K2) as A2.
    pose proof (update_field c_xyz_to_cam "color_matrix" (fun v x => matrix_of x v) step_xyz_to_cam _ _ _ U1 K1) as A1.
    assert (Z0 : forall j, 0 <= j < 12 -> at12 (c_xyz_to_cam c0) j = f32_of 0).
    { at_new. intros j Hj. unfold at12, at4, at3, all4. repeat match goal with |- context [if ?b then _ else _] => destruct b end; reflexivity. }
    assert (J : forall j, 0 <= j < 12 -> at12 (c_xyz_to_cam c2) j = f32_of (item ct m "color_matrix" (Z.to_nat j))).
    { intros j Hj. unfold item.
      assert (B1 : at12 (c_xyz_to_cam c1) j =
                   f32_of (match nth_error (items (written ct "color_matrix")) (Z.to_nat j) with Some (VInt n) => n | _ => 0 end)).
      { destruct (written ct "color_matrix") as [v |].
        - rewrite (matrix_spec _ _ _ A1 j Hj). destruct (nth_error _ _) as [[] |]; try apply (Z0 j Hj); reflexivity.
        - rewrite A1, (Z0 j Hj). cbn [items]. destruct (Z.to_nat j); reflexivity. }
      destruct (written m "color_matrix") as [v |].
      - rewrite (matrix_spec _ _ _ A2 j Hj). destruct (nth_error (items (Some v)) _) as [[] |]; try exact B1. reflexivity.
      - rewrite A2, B1. cbn [items]. destruct (Z.to_nat j); reflexivity. }
    apply matrix_ext. intros j Hj. rewrite (J j Hj).
    assert (D : exists n, (n < 12)%nat /\ j = Z.of_nat n) by (exists (Z.to_nat j); lia).
    destruct D as [n [Hn ->]]. rewrite Nat2Z.id.
    do 12 (destruct n as [| n]; [reflexivity |]). lia.
  - pose proof (update_field c_crops "crops" (fun v x => crops_of x v) step_crops _ _ _ U2 K2) as A2.
    pose proof (update_field c_crops "crops" (fun v x => crops_of x v) step_crops _ _ _ U1 K1) as A1.
    assert (Z0 : forall j, 0 <= j < 4 -> at4 (c_crops c0) j = 0).
    { at_new. intros j Hj. unfold at4, all4. repeat match goal with |- context [if ?b then _ else _] => destruct b end; reflexivity. }
    assert (J : forall j, 0 <= j < 4 -> at4 (c_crops c2) j = item ct m "crops" (Z.to_nat j) mod 2 ^ 64).
    { intros j Hj. unfold item.
      assert (B1 : at4 (c_crops c1) j =
                   (match nth_error (items (written ct "crops")) (Z.to_nat j) with Some (VInt n) => n | _ => 0 end) mod 2 ^ 64).
      { destruct (written ct "crops") as [v |].
        - rewrite (crops_spec _ _ _ A1 j Hj). destruct (nth_error _ _) as [[] |]; try apply (Z0 j Hj); reflexivity.
        - rewrite A1, (Z0 j Hj). cbn [items]. destruct (Z.to_nat j); reflexivity. }
      destruct (written m "crops") as [v |].
      - rewrite (crops_spec _ _ _ A2 j Hj). destruct (nth_error (items (Some v)) _) as [[] |]; try exact B1. reflexivity.
      - rewrite A2, B1. cbn [items]. destruct (Z.to_nat j); reflexivity. }
    apply vec4_ext. intros j Hj. rewrite (J j Hj).
    assert (D : exists n, (n < 4)%nat /\ j = Z.of_nat n) by (exists (Z.to_nat j); lia).
    destruct D as [n [Hn ->]]. rewrite Nat2Z.id.
    do 4 (destruct n as [| n]; [reflexivity |]). lia.
  - apply (replaced c_hints "hints" _ (fun o => map (fun v => text (Some v)) (items o)) step_hints).
    + intros v x H. inv_bind H. apply as_array_inv in E. subst v. apply hints_map in H. exact H.
    + at_new. reflexivity.
  - pose proof (update_field c_cfa "color_pattern" (fun v _ => s <- as_str v ;; cfa_new s) step_cfa _ _ _ U2 K2) as A2.
    pose proof (update_field c_cfa "color_pattern" (fun v _ => s <- as_str v ;; cfa_new s) step_cfa _ _ _ U1 K1) as A1.
    cbv beta in A1, A2. unfold attr.
    destruct (written m "color_pattern") as [v |].
    + inv_bind A2. apply as_str_inv in E. subst v. exact A2.
    + rewrite A2. destruct (written ct "color_pattern") as [v |].
      * inv_bind A1. apply as_str_inv in E. subst v. exact A1.
      * rewrite A1. cbn [text]. at_new. exact F0.
  - assert (S : forall t c c', update_from_toml c t = Ok c' -> c_orientation c' = c_orientation c).
    { induction t as [| [k v] t IH]; intros c c' H; [inversion H; reflexivity |].
      unfold update_from_toml in H. cbn [rfold] in H. apply bind_inv in H. destruct H as [cc [E H]].
      rewrite (IH _ _ H). exact (step_orientation _ _ _ _ E). }
    rewrite (S _ _ _ U2), (S _ _ _ U1). at_new. reflexivity.
Qed.
Lemma one_name : (c_model c1, c_clean_model c1) = (text (written ct "model"), text (written ct "clean_model")).
Proof.
  pose proof (update_field c_model "model" (fun v _ => as_str v) step_model _ _ _ U1 K1) as A1.
  pose proof (update_field c_clean_model "clean_model" (fun v _ => as_str v) step_clean_model _ _ _ U1 K1) as A2.
  cbv beta in A1, A2. f_equal.
  - destruct (written ct "model"); [apply str_spec; exact A1 |]. rewrite A1. at_new. reflexivity.
  - destruct (written ct "clean_model"); [apply str_spec; exact A2 |]. rewrite A2. at_new. reflexivity.
Qed.
End Two.
