(** Proofs about the colour filter array, in the form used by the theorems. *)
From Coq Require Import String Ascii ZArith List Bool Lia ZifyBool ZifyNat.
From Verif Require Import Base Cfa Spec_Cfa P_Base P_Cfa.
Import ListNotations.
Local Open Scope Z_scope.
Ltac Zify.zify_post_hook ::= Z.div_mod_to_equations.

Lemma known_forallb : forall name,
  forallb (fun c => match plane c with Some _ => true | None => false end) (list_ascii_of_string name) = true ->
  known_letters name.
Proof.
  intros name H c Hc. rewrite forallb_forall in H. specialize (H c Hc). destruct (plane c); [discriminate|discriminate H].
Qed.
Lemma names_example :
  pattern_name "RGEB" /\ ~ pattern_name "RGUB" /\ ~ pattern_name "RGB" /\
  cfa_new "RGUB" = Panic /\ cfa_new "RGGBR" = Panic.
Proof.
  split; [split; [discriminate|apply known_forallb; reflexivity]|].
  split; [|split; [|split; [|reflexivity]]].
  - intros [_ K]. apply (K "U"%char); [cbn; tauto|reflexivity].
  - intros [K _]. apply K. reflexivity.
  - apply (cfa_new_bad_letter "RGUB" "U"%char); [cbn; tauto|reflexivity].
Qed.
Section L.
Context {M : Mode}.
Lemma color_at_63 : forall name f row col, pattern_name name -> cfa_new name = Ok f ->
  0 <= row < 2 ^ 63 -> 0 <= col < 2 ^ 63 ->
  exists v, color_at f row col = Ok v /\ colour name row col = Some v.
Proof. intros name f row col P E Hr Hc. apply color_at_real; try assumption; p2lia. Qed.
Lemma color_at_range63 : forall name f row col, cfa_new name = Ok f ->
  0 <= row < 2 ^ 63 -> 0 <= col < 2 ^ 63 -> exists v, color_at f row col = Ok v /\ 0 <= v < 4.
Proof. intros name f row col E Hr Hc. eapply color_at_range; try eassumption; p2lia. Qed.

Lemma shifts_general : forall shifts f row col, zlen (cpat f) = 2304 ->
  Forall (fun s => 0 <= fst s < 2 ^ 63 /\ 0 <= snd s < 2 ^ 63) shifts ->
  0 <= row -> 0 <= col ->
  let total_x := fold_right Z.add 0 (map fst shifts) in
  let total_y := fold_right Z.add 0 (map snd shifts) in
  row + total_y < 2 ^ 63 -> col + total_x < 2 ^ 63 ->
  exists g v, rfold (fun s h => cfa_shift h (fst s) (snd s)) shifts f = Ok g /\
    color_at g row col = Ok v /\ color_at f (row + total_y) (col + total_x) = Ok v.
Proof.
  induction shifts as [|[x y] t IH]; intros f row col L F Hr Hc tx ty Hy Hx.
  - cbn in tx, ty. subst tx ty. exists f. eexists. split; [reflexivity|]. rewrite !Z.add_0_r in *.
    rewrite color_at_ok by (try assumption; p2lia). split; reflexivity.
  - inversion F as [|? ? [F1 F2] F3]; subst. cbn [fst snd] in *. cbn [map fold_right fst snd] in tx, ty.
    assert (P : forall (g : Z * Z -> Z) l, Forall (fun s => 0 <= g s < 2 ^ 63) l -> 0 <= fold_right Z.add 0 (map g l)).
    { induction 1; cbn; lia. }
    assert (0 <= fold_right Z.add 0 (map fst t)) by (apply P; eapply Forall_impl; [|exact F3]; cbn; tauto).
    assert (0 <= fold_right Z.add 0 (map snd t)) by (apply P; eapply Forall_impl; [|exact F3]; cbn; tauto).
    destruct (shift_ok f x y L) as [g [E [Lg _]]]; [p2lia..|].
    destruct (IH g row col Lg F3 Hr Hc) as [k [v [E1 [E2 E3]]]]; [subst tx ty; p2lia..|].
    exists k, v. cbn [rfold fst snd]. rewrite E. cbn [bind]. split; [assumption|]. split; [assumption|].
    rewrite <- E3. symmetry.
    rewrite (shift_color f g x y _ _ L) by (try assumption; subst tx ty; p2lia).
    subst tx ty. f_equal; lia.
Qed.
Lemma shifts_add : forall name f shifts row col, cfa_new name = Ok f ->
  Forall (fun s => 0 <= fst s < 2 ^ 63 /\ 0 <= snd s < 2 ^ 63) shifts ->
  0 <= row -> 0 <= col ->
  let total_x := fold_right Z.add 0 (map fst shifts) in
  let total_y := fold_right Z.add 0 (map snd shifts) in
  row + total_y < 2 ^ 63 -> col + total_x < 2 ^ 63 ->
  exists g v, rfold (fun s h => cfa_shift h (fst s) (snd s)) shifts f = Ok g /\
    color_at g row col = Ok v /\ color_at f (row + total_y) (col + total_x) = Ok v.
Proof. intros name f shifts row col E. apply shifts_general. eapply cfa_new_shape; eassumption. Qed.
Lemma shift_moves : forall name f x y row col, cfa_new name = Ok f ->
  0 <= x -> 0 <= y -> 0 <= row -> 0 <= col -> row + y < 2 ^ 63 -> col + x < 2 ^ 63 ->
  exists g v, cfa_shift f x y = Ok g /\ color_at g row col = Ok v /\ color_at f (row + y) (col + x) = Ok v.
Proof.
  intros name f x y row col E Hx Hy Hr Hc Hry Hcx.
  destruct (shifts_add name f [(x, y)] row col E) as [g [v [E1 [E2 E3]]]].
  - constructor; [|constructor]. cbn [fst snd]. lia.
  - assumption.
  - assumption.
  - cbn. lia.
  - cbn. lia.
  - cbn [rfold fst snd map fold_right] in *. rewrite !Z.add_0_r in E3. exists g, v.
    destruct (cfa_shift f x y); cbn [bind] in E1; try discriminate. injection E1 as ->. auto.
Qed.
Lemma shift_size : forall name f x y g, cfa_new name = Ok f -> 0 <= x < 2 ^ 63 -> 0 <= y < 2 ^ 63 -> cfa_shift f x y = Ok g ->
  cwidth g = cwidth f /\ cheight g = cheight f /\ cfa_is_valid g = cfa_is_valid f.
Proof.
  intros name f x y g E Hx Hy S. destruct (cfa_new_shape _ _ E) as [L _].
  destruct (shift_ok f x y L) as [g' [E' [_ [Hw [Hh _]]]]]; [p2lia..|]. rewrite S in E'. injection E' as <-.
  unfold cfa_is_valid. rewrite Hw, Hh. auto.
Qed.
Lemma clone_same : forall name f, cfa_new name = Ok f ->
  cfa_clone f = Ok f /\
  forall x y g, 0 <= x < 2 ^ 63 -> 0 <= y < 2 ^ 63 -> cfa_shift f x y = Ok g -> cfa_clone g = Ok g.
Proof.
  intros name f E. destruct (cfa_new_shape _ _ E) as [L _]. split; [apply clone_ok; assumption|].
  intros x y g Hx Hy S. apply clone_ok.
  destruct (shift_ok f x y L) as [g' [E' [L' _]]]; [p2lia..|]. rewrite S in E'. injection E' as <-. assumption.
Qed.
Lemma crop_moves : forall name f top right bottom left row col, cfa_new name = Ok f ->
  0 <= left -> 0 <= top -> 0 <= row -> 0 <= col -> row + top < 2 ^ 63 -> col + left < 2 ^ 63 ->
  exists g v, cropped_cfa f [top; right; bottom; left] = Ok g /\
    color_at g row col = Ok v /\ color_at f (row + top) (col + left) = Ok v.
Proof. intros. eapply shift_moves; eassumption. Qed.
End L.

(** Examples.  They go through the lemmas: running the loops over the 48x48
    matrix inside the kernel is slow. *)
Lemma pattern_forallb : forall name, dims (String.length name) <> None ->
  forallb (fun c => match plane c with Some _ => true | None => false end) (list_ascii_of_string name) = true ->
  pattern_name name.
Proof. intros name D K. split; [exact D|apply known_forallb; exact K]. Qed.
Lemma lookup_by_spec : forall {M : Mode} name row col v, pattern_name name ->
  0 <= row < 2 ^ 63 -> 0 <= col < 2 ^ 63 -> colour name row col = Some v ->
  bind (cfa_new name) (fun f => color_at f row col) = Ok v.
Proof.
  intros M name row col v P Hr Hc E. destruct (proj2 (cfa_new_ok_iff name) (or_intror P)) as [f Ef].
  rewrite Ef. cbn [bind]. destruct (color_at_63 name f row col P Ef Hr Hc) as [v' [E1 E2]]. congruence.
Qed.
Lemma cfa_example :
  pattern_name "RGGB" /\ colour "RGGB" 1000000007 14 = Some 1 /\
  bind (cfa_new "RGGB") (fun f => color_at (M := true) f 1000000007 14) = Ok 1 /\
  bind (cfa_new "GMYEGMEYGMYEMGYE") (fun f => color_at (M := true) f 11 4) = Ok 3.
Proof.
  split; [apply pattern_forallb; [discriminate|reflexivity]|]. split; [reflexivity|].
  split; apply lookup_by_spec; try (apply pattern_forallb; [discriminate|reflexivity]); try p2lia; reflexivity.
Qed.
Lemma shift_example :
  bind (cfa_new "RGGB") (fun f => bind (rfold (fun s h => cfa_shift (M := true) h (fst s) (snd s)) [(3, 2); (4, 7)] f)
    (fun h => color_at (M := true) h 5 6)) = Ok 1.
Proof.
  assert (P : pattern_name "RGGB") by (apply pattern_forallb; [discriminate|reflexivity]).
  destruct (proj2 (cfa_new_ok_iff "RGGB") (or_intror P)) as [f Ef].
  pose proof (lookup_by_spec (M := true) "RGGB" 14 13 1 P) as K.
  rewrite Ef in *. cbn [bind] in *.
  destruct (shifts_add (M := true) "RGGB" f [(3, 2); (4, 7)] 5 6 Ef) as [g [v [E1 [E2 E3]]]];
    [repeat constructor; cbn [fst snd]; p2lia|p2lia|p2lia|cbn; p2lia|cbn; p2lia|].
  rewrite E1. cbn [bind]. rewrite E2. cbn [map fst snd fold_right] in E3. rewrite <- E3.
  apply K; [p2lia|p2lia|reflexivity].
Qed.
Lemma crop_example :
  bind (cfa_new "RGGB") (fun f => bind (cropped_cfa (M := true) f [1; 9; 9; 3]) (fun g => color_at (M := true) g 0 0)) = Ok 2.
Proof.
  assert (P : pattern_name "RGGB") by (apply pattern_forallb; [discriminate|reflexivity]).
  destruct (proj2 (cfa_new_ok_iff "RGGB") (or_intror P)) as [f Ef].
  pose proof (lookup_by_spec (M := true) "RGGB" 1 3 2 P) as K.
  rewrite Ef in *. cbn [bind] in *.
  destruct (crop_moves (M := true) "RGGB" f 1 9 9 3 0 0 Ef) as [g [v [E1 [E2 E3]]]]; [p2lia..|].
  rewrite E1. cbn [bind]. rewrite E2. rewrite <- E3. apply K; [p2lia|p2lia|reflexivity].
Qed.
Definition xtrans : string := "GGRGGBGGBGGRBRGRBGGGBGGRGGRGGBRBGBRG".
Lemma color_at_huge :
  exists name f row, pattern_name name /\ cfa_new name = Ok f /\ 0 <= row < 2 ^ 64 /\
    color_at (M := true) f row 0 = Panic /\
    exists v v', color_at (M := false) f row 0 = Ok v /\ colour name row 0 = Some v' /\ v <> v'.
Proof.
  destruct (cfa_new_real xtrans 6 6 eq_refl) as (f & Ef & _ & _ & _ & L & N).
  { apply known_forallb. reflexivity. }
  exists xtrans, f, (2 ^ 64 - 1).
  split; [split; [discriminate|apply known_forallb; reflexivity]|].
  split; [exact Ef|]. split; [p2lia|]. split; [reflexivity|].
  exists 0, 1. split; [|split; [reflexivity|lia]].
  change (color_at (M := false) f (2 ^ 64 - 1) 0) with (pat_get (cpat f) 47 0).
  rewrite pat_get_ok by (try assumption; unfold in48; lia).
  specialize (N 47 0 ltac:(unfold in48; lia)).
  change (plane (letter xtrans (47 mod 6 * 6 + 0 mod 6))) with (Some 0) in N. injection N as N. f_equal. symmetry. exact N.
Qed.

Lemma cfa_valid_any : forall f, cfa_is_valid f = true <-> cwidth f <> 0 /\ cheight f <> 0.
Proof. intros f. unfold cfa_is_valid. rewrite Bool.andb_true_iff, !Bool.negb_true_iff, !Z.eqb_neq. reflexivity. Qed.
