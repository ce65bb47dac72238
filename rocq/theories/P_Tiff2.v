(** Proofs about what parsing a file can give. *)
From Coq Require Import String ZArith List Bool Lia ZifyBool ZifyNat.
From Verif Require Import Base Bytes Tiff Ciff Spec_Bits Spec_Tiff P_Base P_Bits P_Tiff1.
Import ListNotations.
Local Open Scope Z_scope.
Ltac Zify.zify_post_hook ::= Z.div_mod_to_equations.

(** ** No loop *)
Definition ends {A} (r : res A) : Prop := r <> Loop.
Lemma ends_Ok : forall {A} (a : A), ends (Ok a). Proof. discriminate. Qed.
Lemma ends_Err : forall {A} m, ends (@Err A m). Proof. discriminate. Qed.
Lemma ends_Panic : forall {A}, ends (@Panic A). Proof. discriminate. Qed.
Lemma ends_bind : forall {A B} (x : res A) (k : A -> res B), ends x -> (forall a, ends (k a)) -> ends (bind x k).
Proof. intros A B [a|m| |] k H1 H2; cbn; try apply H2; try discriminate. destruct H1. reflexivity. Qed.
Lemma ends_bind_ok : forall {A B} (x : res A) (k : A -> res B), ends x -> (forall a, x = Ok a -> ends (k a)) -> ends (bind x k).
Proof. intros A B [a|m| |] k H1 H2; cbn; try (apply H2; reflexivity); try discriminate. destruct H1. reflexivity. Qed.
Lemma ends_rfold : forall {A S} (f : A -> S -> res S) xs s, (forall x s, ends (f x s)) -> ends (rfold f xs s).
Proof. induction xs as [|x t IH]; intros s H; cbn; [discriminate|]. apply ends_bind; [apply H|intros; apply IH; exact H]. Qed.
Lemma ends_mapM : forall {A B} (f : A -> res B) xs, (forall x, ends (f x)) -> ends (mapM f xs).
Proof.
  induction xs as [|x t IH]; intros H; cbn; [discriminate|]. apply ends_bind; [apply H|intros].
  apply ends_bind; [apply IH; exact H|intros; apply ends_Ok].
Qed.
Lemma ends_slice : forall {A} (l : list A) a b, ends (slice l a b).
Proof. intros. unfold slice. destruct (_ && _ && _); discriminate. Qed.
Lemma ends_slice_from : forall {A} (l : list A) a, ends (slice_from l a).
Proof. intros. unfold slice_from. destruct (_ && _); discriminate. Qed.
Lemma ends_get : forall {A} (l : list A) a, ends (get l a).
Proof. intros. unfold get. destruct (_ && _); [destruct (nth_error _ _)|]; discriminate. Qed.
Lemma ends_upd : forall {A} (l : list A) a v, ends (upd l a v).
Proof. intros. unfold upd. destruct (_ && _); discriminate. Qed.
Lemma ends_arith_u : forall {M : Mode} n v, ends (arith_u n v).
Proof. intros. unfold arith_u. destruct (_ && _); [|destruct debug]; discriminate. Qed.
Lemma ends_arith_s : forall {M : Mode} n v, ends (arith_s n v).
Proof. intros. unfold arith_s. destruct (_ && _); [|destruct debug]; discriminate. Qed.
Lemma ends_ru16 : forall e b p, ends (ru16 e b p).
Proof. intros. destruct e; apply ends_bind; intros; try apply ends_slice; discriminate. Qed.
Lemma ends_ru32 : forall e b p, ends (ru32 e b p).
Proof. intros. destruct e; apply ends_bind; intros; try apply ends_slice; discriminate. Qed.
Lemma ends_BEu16 : forall b p, ends (BEu16 b p). Proof. exact (ends_ru16 true). Qed.
Lemma ends_LEu16 : forall b p, ends (LEu16 b p). Proof. exact (ends_ru16 false). Qed.
Lemma ends_BEu32 : forall b p, ends (BEu32 b p). Proof. exact (ends_ru32 true). Qed.
Lemma ends_LEu32 : forall b p, ends (LEu32 b p). Proof. exact (ends_ru32 false). Qed.
Lemma ends_if : forall {A} (b : bool) (x y : res A), ends x -> ends y -> ends (if b then x else y).
Proof. intros A [|]; auto. Qed.

Ltac ends1 := first
  [ apply ends_Ok | apply ends_Err | apply ends_Panic | apply ends_slice | apply ends_slice_from | apply ends_get | apply ends_upd
  | apply ends_ru16 | apply ends_ru32 | apply ends_BEu16 | apply ends_LEu16 | apply ends_BEu32 | apply ends_LEu32
  | apply ends_arith_u | apply ends_arith_s | assumption
  | apply ends_bind; [|intros ?] | apply ends_rfold; intros ? ? | apply ends_mapM; intros ? | apply ends_if
  | match goal with |- ends (match ?x with _ => _ end) => destruct x end ].
Ltac ends_tac := repeat ends1.

Section Any.
Context {M : Mode}.
Lemma ends_at_is : forall b p w, ends (at_is b p w). Proof. intros. unfold at_is. ends_tac. Qed.
Lemma ends_entry_new : forall b a c d e, ends (entry_new b a c d e).
Proof. intros. unfold entry_new, usub, uadd. ends_tac. Qed.
Lemma ends_get_u32 : forall en i, ends (get_u32 en i).
Proof. intros. unfold get_u32, get_force_u32. ends_tac. Qed.
Lemma ends_add_sub : forall r en st, ends r -> ends (add_sub r en st).
Proof. intros r en [a b] H. unfold add_sub. destruct r; ends_tac. destruct H; reflexivity. Qed.
Lemma ends_makernote : forall (p : parser) b o base e, (forall a b c d e, ends (p a b c d e)) -> ends (makernote p b o base e).
Proof.
  intros p b o base e H. unfold makernote.
  repeat first [apply ends_at_is | apply H | ends1].
Qed.
Lemma ends_ifd_body : forall d b o base st e, (forall p, d = Some p -> forall a b c d e, ends (p a b c d e)) -> ends (ifd_body d b o base st e).
Proof.
  intros d b o base st e H. unfold ifd_body.
  apply ends_bind; [apply ends_ru16|intros num]. apply ends_if; [apply ends_Err|].
  apply ends_bind; [|intros [? ?]; ends_tac].
  apply ends_rfold. intros i s. apply ends_bind; [apply ends_ru16|intros tag]. apply ends_if; [apply ends_Ok|].
  apply ends_bind; [apply ends_entry_new|intros en]. apply ends_if.
  - destruct d as [p|]; [|apply ends_Ok]. apply ends_rfold. intros. apply ends_bind; [apply ends_get_u32|intros].
    apply ends_add_sub, H. reflexivity.
  - apply ends_if; [|destruct s; apply ends_Ok]. destruct d as [p|]; [|apply ends_Ok]. apply ends_add_sub, ends_makernote, H. reflexivity.
Qed.
Lemma ends_ifd_levels : forall l b o base st e, ends (ifd_levels l b o base st e).
Proof.
  induction l as [|l IH]; intros; cbn [ifd_levels]; apply ends_ifd_body; intros p Hp; [discriminate|].
  injection Hp as <-. exact IH.
Qed.
Lemma ends_ifd_chain : forall n b o x e s, ends (ifd_chain n b o x e s).
Proof.
  induction n as [|n IH]; intros; cbn [ifd_chain]; [apply ends_Ok|].
  apply ends_bind; [apply ends_slice_from|intros]. apply ends_bind; [apply ends_ifd_levels|intros]. apply ends_if; [apply ends_Ok|apply IH].
Qed.
Lemma ends_ifd_new_root : forall b o, ends (ifd_new_root b o).
Proof.
  intros. unfold ifd_new_root. repeat first [apply ends_ifd_chain | ends1].
Qed.
Lemma ends_ifd_new_fuji : forall b o, ends (ifd_new_fuji b o).
Proof.
  intros. unfold ifd_new_fuji, u16add. ends_tac.
Qed.
Lemma ends_ifd_new_file : forall b, ends (ifd_new_file b).
Proof.
  intros. unfold ifd_new_file, u32add.
  repeat first [apply ends_at_is | apply ends_ifd_new_root | apply ends_ifd_new_fuji |
    match goal with
    | |- ends (match ifd_new_root ?b ?o with _ => _ end) => generalize (ends_ifd_new_root b o); destruct (ifd_new_root b o); intros ?
    | |- ends (match ifd_new_fuji ?b ?o with _ => _ end) => generalize (ends_ifd_new_fuji b o); destruct (ifd_new_fuji b o); intros ?
    | H : ends Loop |- _ => destruct H; reflexivity
    end | ends1].
Qed.
Lemma ends_centry_new : forall b a c, ends (centry_new b a c).
Proof. intros. unfold centry_new. ends_tac. Qed.
Lemma ends_cifd_body : forall d b x y, (forall p, d = Some p -> forall a b c, ends (p a b c)) -> ends (cifd_body d b x y).
Proof.
  intros d b x y H. unfold cifd_body, usub. do 3 (apply ends_bind; [ends1|intros]).
  apply ends_bind; [|intros [? ?]; apply ends_Ok]. apply ends_rfold. intros i [en sb].
  apply ends_bind; [apply ends_centry_new|intros c]. apply ends_if; [|apply ends_Ok].
  destruct d as [p|]; [|apply ends_Ok]. generalize (H p eq_refl b (ce_offset c) (ce_offset c + ce_bytesize c)).
  destruct (p b (ce_offset c) (ce_offset c + ce_bytesize c)); intros G; ends_tac. destruct G; reflexivity.
Qed.
Lemma ends_cifd_levels : forall l b x y, ends (cifd_levels l b x y).
Proof.
  induction l as [|l IH]; intros; cbn [cifd_levels]; apply ends_cifd_body; intros p Hp; [discriminate|].
  injection Hp as <-. exact IH.
Qed.
Lemma ends_cifd_new_file : forall b s, ends (cifd_new_file b s).
Proof. intros. unfold cifd_new_file. apply ends_bind; [ends1|intros; apply ends_cifd_levels]. Qed.
End Any.
