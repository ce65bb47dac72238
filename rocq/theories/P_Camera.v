(** Proofs about the camera database. *)
From Coq Require Import String ZArith List Bool Lia.
From Coq Require Import ZifyBool ZifyNat.
From Flocq Require Import BinarySingleNaN.
From Verif Require Import Base Num F32 Cfa Transform Camera Spec_Camera P_Base.
Import ListNotations.
Local Open Scope Z_scope.

Ltac inv_bind H :=
  repeat match type of H with
  | bind _ _ = Ok _ => let x := fresh "x" in let E := fresh "E" in
      apply bind_inv in H; destruct H as [x [E H]]
  end.

Lemma as_str_inv : forall v s, as_str v = Ok s -> v = VStr s.
Proof. intros v x H; destruct v; cbn in H; congruence. Qed.
Lemma as_integer_inv : forall v n, as_integer v = Ok n -> v = VInt n.
Proof. intros v x H; destruct v; cbn in H; congruence. Qed.
Lemma as_array_inv : forall v l, as_array v = Ok l -> v = VArr l.
Proof. intros v x H; destruct v; cbn in H; congruence. Qed.
Lemma as_table_inv : forall v l, as_table v = Ok l -> v = VTable l.
Proof. intros v x H; destruct v; cbn in H; congruence. Qed.

Lemma tget_written : forall t k, tget t k = written t k.
Proof.
  induction t as [| [k' v] t IH]; intros k; [reflexivity |].
  unfold written in *; cbn [tget find fst]. destruct (String.eqb k' k); [reflexivity | apply IH].
Qed.

(** One attribute depends on one key. *)
Section Field.
Context {X : Type} (proj : camera -> X) (k : string) (st : value -> X -> res X).
Hypothesis step : forall name val c c', set_attr name val c = Ok c' ->
  if String.eqb name k then st val (proj c) = Ok (proj c') else proj c' = proj c.

Lemma update_other : forall t c c', update_from_toml c t = Ok c' -> ~ In k (map fst t) -> proj c' = proj c.
Proof.
  unfold update_from_toml. induction t as [| [name val] t IH]; intros c c' H N.
  - inversion H; reflexivity.
  - cbn [rfold] in H. apply bind_inv in H. destruct H as [c1 [E H]].
    rewrite (IH c1 c' H) by (intro I; apply N; right; exact I).
    specialize (step _ _ _ _ E). destruct (String.eqb_spec name k) as [-> |]; [exfalso; apply N; left; reflexivity | exact step].
Qed.
Lemma update_field : forall t c c', update_from_toml c t = Ok c' -> unique_keys t ->
  match written t k with
  | Some v => st v (proj c) = Ok (proj c')
  | None => proj c' = proj c
  end.
Proof.
  unfold unique_keys. induction t as [| [name val] t IH]; intros c c' H N.
  - inversion H; reflexivity.
  - pose proof H as H0. unfold update_from_toml in H. cbn [rfold] in H. apply bind_inv in H. destruct H as [c1 [E H]].
    cbn [map fst] in N. inversion N as [| ? ? N1 N2]; subst.
    pose proof (step _ _ _ _ E) as S. unfold written. cbn [find fst].
    destruct (String.eqb_spec name k) as [-> |].
    + cbn [option_map snd]. rewrite (update_other t c1 c' H N1). exact S.
    + specialize (IH c1 c' H N2). unfold written in IH.
      destruct (option_map snd (find (fun p => String.eqb (fst p) k) t)); [rewrite <- S; exact IH | rewrite IH; exact S].
Qed.
End Field.

Ltac field_step :=
  let name := fresh "name" in let val := fresh "val" in let c := fresh "c" in let c' := fresh "c'" in
  let H := fresh "H" in
  intros name val c c' H; unfold set_attr in H;
  repeat match type of H with
  | (if String.eqb name ?k then _ else _) = _ =>
      destruct (String.eqb_spec name k); [subst name; cbn [String.eqb Ascii.eqb Bool.eqb] | ]
  end;
  inv_bind H; try (inversion H; subst c'; clear H);
  try match goal with |- context [String.eqb ?a ?b] =>
    first [ let r := eval vm_compute in (String.eqb a b) in
            match r with true => idtac | false => idtac end; change (String.eqb a b) with r
          | destruct (String.eqb_spec a b); [ contradiction | ] ] end;
  cbn [c_make c_model c_mode c_clean_make c_clean_model c_filesize c_raw_width c_raw_height c_orientation
       c_whites c_blacks c_blackareah c_blackareav c_xyz_to_cam c_cfa c_crops c_bps c_wb_offset c_hints
       set_make set_model set_mode set_clean_make set_clean_model set_filesize set_raw_width set_raw_height
       set_whites set_blacks set_blackareah set_blackareav set_xyz_to_cam set_cfa set_crops set_bps set_wb_offset set_hints];
  try reflexivity.

Lemma step_make : forall name val c c', set_attr name val c = Ok c' ->
  if String.eqb name "make" then as_str val = Ok (c_make c') else c_make c' = c_make c.
Proof. field_step. all: assumption. Qed.
Lemma step_model : forall name val c c', set_attr name val c = Ok c' ->
  if String.eqb name "model" then as_str val = Ok (c_model c') else c_model c' = c_model c.
Proof. field_step. all: assumption. Qed.
Lemma step_mode : forall name val c c', set_attr name val c = Ok c' ->
  if String.eqb name "mode" then as_str val = Ok (c_mode c') else c_mode c' = c_mode c.
Proof. field_step. all: assumption. Qed.
Lemma step_clean_make : forall name val c c', set_attr name val c = Ok c' ->
  if String.eqb name "clean_make" then as_str val = Ok (c_clean_make c') else c_clean_make c' = c_clean_make c.
Proof. field_step. all: assumption. Qed.
Lemma step_clean_model : forall name val c c', set_attr name val c = Ok c' ->
  if String.eqb name "clean_model" then as_str val = Ok (c_clean_model c') else c_clean_model c' = c_clean_model c.
Proof. field_step. all: assumption. Qed.
Lemma step_bps : forall name val c c', set_attr name val c = Ok c' ->
  if String.eqb name "bps" then (n <- as_integer val ;; Ok (as_u64 n)) = Ok (c_bps c') else c_bps c' = c_bps c.
Proof. field_step. all: rewrite E; reflexivity. Qed.
Lemma step_wb_offset : forall name val c c', set_attr name val c = Ok c' ->
  if String.eqb name "wb_offset" then (n <- as_integer val ;; Ok (as_u64 n)) = Ok (c_wb_offset c') else c_wb_offset c' = c_wb_offset c.
Proof. field_step. all: rewrite E; reflexivity. Qed.
Lemma step_filesize : forall name val c c', set_attr name val c = Ok c' ->
  if String.eqb name "filesize" then (n <- as_integer val ;; Ok (as_u64 n)) = Ok (c_filesize c') else c_filesize c' = c_filesize c.
Proof. field_step. all: rewrite E; reflexivity. Qed.
Lemma step_raw_width : forall name val c c', set_attr name val c = Ok c' ->
  if String.eqb name "raw_width" then (n <- as_integer val ;; Ok (as_u64 n)) = Ok (c_raw_width c') else c_raw_width c' = c_raw_width c.
Proof. field_step. all: rewrite E; reflexivity. Qed.
Lemma step_raw_height : forall name val c c', set_attr name val c = Ok c' ->
  if String.eqb name "raw_height" then (n <- as_integer val ;; Ok (as_u64 n)) = Ok (c_raw_height c') else c_raw_height c' = c_raw_height c.
Proof. field_step. all: rewrite E; reflexivity. Qed.
Lemma step_whites : forall name val c c', set_attr name val c = Ok c' ->
  if String.eqb name "whitepoint" then (n <- as_integer val ;; Ok (all4 (as_u16 n))) = Ok (c_whites c') else c_whites c' = c_whites c.
Proof. field_step. all: rewrite E; reflexivity. Qed.
Lemma step_blacks : forall name val c c', set_attr name val c = Ok c' ->
  if String.eqb name "blackpoint" then (n <- as_integer val ;; Ok (all4 (as_u16 n))) = Ok (c_blacks c') else c_blacks c' = c_blacks c.
Proof. field_step. all: rewrite E; reflexivity. Qed.
Lemma step_blackareah : forall name val c c', set_attr name val c = Ok c' ->
  if String.eqb name "blackareah" then area_of val = Ok (c_blackareah c') else c_blackareah c' = c_blackareah c.
Proof. field_step. all: assumption. Qed.
Lemma step_blackareav : forall name val c c', set_attr name val c = Ok c' ->
  if String.eqb name "blackareav" then area_of val = Ok (c_blackareav c') else c_blackareav c' = c_blackareav c.
Proof. field_step. all: assumption. Qed.
Lemma step_xyz_to_cam : forall name val c c', set_attr name val c = Ok c' ->
  if String.eqb name "color_matrix" then matrix_of (c_xyz_to_cam c) val = Ok (c_xyz_to_cam c') else c_xyz_to_cam c' = c_xyz_to_cam c.
Proof. field_step. all: assumption. Qed.
Lemma step_crops : forall name val c c', set_attr name val c = Ok c' ->
  if String.eqb name "crops" then crops_of (c_crops c) val = Ok (c_crops c') else c_crops c' = c_crops c.
Proof. field_step. all: assumption. Qed.
Lemma step_hints : forall name val c c', set_attr name val c = Ok c' ->
  if String.eqb name "hints" then (l <- as_array val ;; mapM as_str l) = Ok (c_hints c') else c_hints c' = c_hints c.
Proof. field_step. all: rewrite E; exact E0. Qed.
Lemma step_cfa : forall name val c c', set_attr name val c = Ok c' ->
  if String.eqb name "color_pattern" then (s <- as_str val ;; cfa_new s) = Ok (c_cfa c') else c_cfa c' = c_cfa c.
Proof. field_step. all: rewrite E; exact E0. Qed.
Lemma step_orientation : forall name val c c', set_attr name val c = Ok c' -> c_orientation c' = c_orientation c.
Proof. field_step. Qed.
