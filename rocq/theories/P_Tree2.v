(** Looking up fields of nested directories (C59). *)
From Coq Require Import String Ascii ZArith List Bool Lia.
From Verif Require Import Base Num F32 Bytes Tiff Ciff Transform Image Camera Clients Decoder Dec_Header Dispatch.
From Verif Require Import Spec_Bits Spec_Image Spec_Tiff Spec_Camera Spec_Known Spec_File Spec_Tree P_Base P_Bits P_Tiff3 P_Tiff5 P_File1 P_Tree1.
From Verif Require P_Dispatch.
Import ListNotations.
Local Open Scope Z_scope.

Section Tree_ind.
Variable P : tree -> Prop.
Hypothesis H : forall fs subs, Forall P subs -> P (Tree fs subs).
Fixpoint tree_deep (t : tree) : P t :=
  match t with Tree fs subs => H fs subs ((fix go (l : list tree) : Forall P l := match l with [] => Forall_nil _ | x :: r => Forall_cons _ (tree_deep x) (go r) end) subs) end.
End Tree_ind.

(** ** The first field with a tag *)
Definition first (tag : Z) (fs : list field) : option field := find (fun f => f_tag f =? tag) fs.
Definition answers (big : bool) (o : option field) (e : option entry) : Prop :=
  match o with Some f => exists en, e = Some en /\ holds big f en | None => e = None end.
Lemma lookup_first : forall big fs es tag, Forall2 (stored big) fs es -> NoDup (map f_tag fs) -> answers big (first tag fs) (lookup es tag).
Proof.
  intros big fs es tag H Hnd. destruct (lookup_stored big fs es tag H Hnd) as [L1 L2]. unfold first, answers. destruct (find _ fs) as [f|] eqn:E.
  - apply find_some in E. destruct E as [E1 E2]. apply (L1 f E1). lia.
  - apply L2. intros G. apply in_map_iff in G. destruct G as (f & Ef & Hf). apply (find_none _ _ E) in Hf. cbv beta in Hf. lia.
Qed.
Lemma first_app : forall tag a b, first tag (a ++ b) = match first tag a with Some f => Some f | None => first tag b end.
Proof. intros tag a b. unfold first. induction a as [|x a IH]; [reflexivity|]. cbn [app find]. destruct (f_tag x =? tag); [reflexivity|exact IH]. Qed.
Lemma values_nodup : forall fs subs, NoDup (map f_tag fs) -> NoDup (map f_tag (values (Tree fs subs))).
Proof.
  intros fs subs. unfold values. cbn [fields_of]. induction fs as [|f fs IH]; intros H; [constructor|]. cbn [filter map] in *. inversion H as [|? ? H1 H2]; subst.
  destruct (_ && _); [|apply IH; exact H2]. cbn [map]. constructor; [|apply IH; exact H2]. intros G. apply H1. apply in_map_iff in G. destruct G as (g & <- & Hg). apply filter_In in Hg. apply in_map, Hg.
Qed.
Definition all_fields (ts : list tree) : list field := flat_map values (flat_map all_trees ts).
Lemma all_fields_cons : forall t ts, all_fields (t :: ts) = all_fields [t] ++ all_fields ts.
Proof. intros t ts. unfold all_fields. cbn [flat_map]. rewrite app_nil_r, flat_map_app. reflexivity. Qed.
Lemma all_fields_tree : forall fs subs, all_fields [Tree fs subs] = values (Tree fs subs) ++ all_fields subs.
Proof. intros fs subs. unfold all_fields. cbn [flat_map all_trees]. rewrite app_nil_r. reflexivity. Qed.
Fixpoint find_in (l : list ifd) (tag : Z) : option entry := match l with [] => None | s :: t => match find_entry s tag with Some x => Some x | None => find_in t tag end end.
Lemma find_entry_eq : forall es subs n s e tag, find_entry (mkifd es subs n s e) tag = match lookup es tag with Some x => Some x | None => find_in subs tag end.
Proof. intros es subs n s e tag. cbn [find_entry]. destruct (lookup es tag); [reflexivity|]. induction subs as [|x t IH]; [reflexivity|]. cbn [find_in]. destruct (find_entry x tag); [reflexivity|exact IH]. Qed.
Lemma in_found : forall big tag ts is, Forall (fun t => forall i, reads big t i -> answers big (first tag (all_fields [t])) (find_entry i tag)) ts -> Forall2 (reads big) ts is ->
  answers big (first tag (all_fields ts)) (find_in is tag).
Proof.
  intros big tag ts is H H2. induction H2 as [|t i ts is Hr H2 IH]; [reflexivity|]. inversion H as [|? ? Ht Hts]; subst. rewrite all_fields_cons, first_app. cbn [find_in].
  specialize (Ht i Hr). destruct (first tag (all_fields [t])) as [f|]; cbn [answers] in *.
  - destruct Ht as (en & -> & Hh). exists en. auto.
  - rewrite Ht. apply IH. exact Hts.
Qed.
Lemma tree_found : forall big tag t i, reads big t i -> answers big (first tag (all_fields [t])) (find_entry i tag).
Proof.
  intros big tag t. induction t as [fs subs IH] using tree_deep. intros i Hr. inversion Hr as [? ? es is nx Hnd Hst Hsub]; subst. rewrite all_fields_tree, first_app, find_entry_eq.
  pose proof (lookup_first big _ _ tag Hst (values_nodup fs subs Hnd)) as L. destruct (first tag (values (Tree fs subs))) as [f|]; cbn [answers] in *.
  - destruct L as (en & -> & Hh). exists en. auto.
  - rewrite L. apply in_found; assumption.
Qed.
Lemma root_found : forall big tag ts is nx s e, Forall2 (reads big) ts is -> answers big (first tag (all_fields ts)) (find_entry (mkifd [] is nx s e) tag).
Proof. intros big tag ts is nx s e H. rewrite find_entry_eq. cbn [lookup]. apply in_found; [|exact H]. apply Forall_forall. intros t _ i. apply tree_found. Qed.

(** ** The fields an outsider sees *)
Lemma firsts_first : forall fs f, In f (firsts fs) -> first (f_tag f) fs = Some f.
Proof.
  induction fs as [|g fs IH]; intros f H; [destruct H|]. cbn [firsts In] in H. unfold first. cbn [find]. destruct H as [-> | H]; [rewrite Z.eqb_refl; reflexivity|].
  apply filter_In in H. destruct H as [H1 H2]. replace (f_tag g =? f_tag f) with false by lia. apply IH. exact H1.
Qed.
Lemma firsts_tag : forall fs tag, In tag (map f_tag fs) -> In tag (map f_tag (firsts fs)).
Proof.
  induction fs as [|g fs IH]; intros tag H; [exact H|]. cbn [firsts map In] in *. destruct (Z.eq_dec (f_tag g) tag) as [E|E]; [left; exact E|right].
  destruct H as [H|H]; [contradiction|]. specialize (IH tag H). apply in_map_iff in IH. destruct IH as (f & <- & Hf). apply in_map. apply filter_In. split; [exact Hf|]. lia.
Qed.
Lemma first_none : forall tag fs, has_no (firsts fs) tag -> first tag fs = None.
Proof.
  intros tag fs H. unfold first. destruct (find _ fs) as [f|] eqn:E; [|reflexivity]. exfalso. apply find_some in E. destruct E as [E1 E2]. apply H, firsts_tag. replace tag with (f_tag f) by lia. apply in_map, E1.
Qed.
Record Sees (big : bool) (fs : list field) (i : ifd) : Prop := {
  s_in : forall f, In f fs -> exists en, find_entry i (f_tag f) = Some en /\ holds big f en;
  s_no : forall tag, has_no fs tag -> find_entry i tag = None;
  s_end : i_endian i = big
}.
Lemma sees_visible : forall big ts i, (forall tag, answers big (first tag (all_fields ts)) (find_entry i tag)) -> i_endian i = big -> Sees big (visible ts) i.
Proof.
  intros big ts i H He. change (visible ts) with (firsts (all_fields ts)). split; [| |exact He].
  - intros f Hf. specialize (H (f_tag f)). rewrite (firsts_first _ _ Hf) in H. exact H.
  - intros tag Ht. specialize (H tag). rewrite (first_none _ _ Ht) in H. exact H.
Qed.
Lemma tree_sees : forall big t i, reads big t i -> Sees big (visible [t]) i.
Proof. intros big t i H. apply sees_visible; [intros tag; apply tree_found; exact H|]. inversion H; subst. reflexivity. Qed.

(** ** The first directory with a tag *)
Lemma contains_value : forall big t i tag, reads big t i -> contains i tag = has_value tag t.
Proof.
  intros big t i tag H. inversion H as [fs subs es is nx Hnd Hst Hsub]; subst. unfold contains, has_value. cbn [i_entries].
  pose proof (lookup_first big _ _ tag Hst (values_nodup fs subs Hnd)) as L. unfold first, answers in L. destruct (find _ _) as [f|] eqn:E.
  - destruct L as (en & -> & _). symmetry. apply existsb_exists. exists f. apply find_some in E. exact E.
  - rewrite L. symmetry. destruct (existsb _ _) eqn:X; [|reflexivity]. apply existsb_exists in X. destruct X as (f & X1 & X2). apply (find_none _ _ E) in X1. cbv beta in X1. congruence.
Qed.
Fixpoint ifds_in (l : list ifd) (tag : Z) : list ifd := match l with [] => [] | s :: t => (if contains s tag then [s] else []) ++ find_ifds_with_tag s tag ++ ifds_in t tag end.
Lemma find_ifds_eq : forall es subs n s e tag, find_ifds_with_tag (mkifd es subs n s e) tag = (if contains (mkifd es subs n s e) tag then [mkifd es subs n s e] else []) ++ ifds_in subs tag.
Proof. intros es subs n s e tag. cbn [find_ifds_with_tag]. f_equal. induction subs as [|x t IH]; [reflexivity|]. cbn [ifds_in]. rewrite <- IH. reflexivity. Qed.
(** What [find_first_ifd] gives, as a relation between trees and directories *)
Definition leads (big : bool) (o : option tree) (l : list ifd) : Prop :=
  match o with Some t => exists i r, l = i :: r /\ reads big t i | None => l = [] end.
Lemma find_app : forall {A} (p : A -> bool) a b, find p (a ++ b) = match find p a with Some x => Some x | None => find p b end.
Proof. intros A p a b. induction a as [|x a IH]; [reflexivity|]. cbn [app find]. destruct (p x); [reflexivity|exact IH]. Qed.
Lemma in_leads : forall big tag ts is, Forall (fun t => forall i, reads big t i -> leads big (find (has_value tag) (all_trees t)) (find_ifds_with_tag i tag)) ts -> Forall2 (reads big) ts is ->
  leads big (find (has_value tag) (flat_map all_trees ts)) (ifds_in is tag).
Proof.
  intros big tag ts is H H2. induction H2 as [|t i ts is Hr H2 IH]; [reflexivity|]. inversion H as [|? ? Ht Hts]; subst. cbn [flat_map ifds_in]. rewrite find_app, (contains_value _ _ _ tag Hr).
  specialize (Ht i Hr). destruct (has_value tag t) eqn:E.
  - destruct t as [fs subs]. cbn [all_trees find]. rewrite E. cbn [leads]. eexists _, _. split; [reflexivity|exact Hr].
  - cbn [app]. destruct (find (has_value tag) (all_trees t)) as [t'|]; cbn [leads] in *.
    + destruct Ht as (i' & r & -> & Hr'). eexists _, _. split; [reflexivity|exact Hr'].
    + rewrite Ht. apply IH. exact Hts.
Qed.
Lemma tree_leads : forall big tag t i, reads big t i -> leads big (find (has_value tag) (all_trees t)) (find_ifds_with_tag i tag).
Proof.
  intros big tag t. induction t as [fs subs IH] using tree_deep. intros i Hr. pose proof (contains_value _ _ _ tag Hr) as C. inversion Hr as [? ? es is nx Hnd Hst Hsub]; subst.
  rewrite find_ifds_eq, C. cbn [all_trees find]. destruct (has_value tag (Tree fs subs)).
  - eexists _, _. split; [reflexivity|exact Hr].
  - cbn [app]. apply in_leads; assumption.
Qed.
Lemma root_leads : forall big tag ts is nx s e, Forall2 (reads big) ts is -> leads big (find (has_value tag) (flat_map all_trees ts)) (find_ifds_with_tag (mkifd [] is nx s e) tag).
Proof. intros big tag ts is nx s e H. rewrite find_ifds_eq. cbn [contains i_entries lookup app]. apply in_leads; [|exact H]. apply Forall_forall. intros t _ i. apply tree_leads. Qed.

(** ** Opening a file *)
Record Nested (big : bool) (ts : list tree) (root : ifd) : Prop := {
  n_sees : Sees big (visible ts) root;
  n_with : forall tag t, directory_with ts tag t -> exists i, find_first_ifd root tag = Some i /\ reads big t i;
  n_without : forall tag, has_no (visible ts) tag -> find_first_ifd root tag = None;
  n_end : i_endian root = big;
  n_tree : exists is, root = mkifd [] is 0 0 big /\ Forall2 (reads big) ts is
}.
Section Any.
Context {M : Mode}.
Lemma skip_zero : forall buf : list Z, slice_from buf 0 = Ok buf.
Proof. intros buf. rewrite slice_from_ok by (pose proof (zlen_nonneg buf); lia). reflexivity. Qed.
Lemma chain_read : forall big file pad ts n pos acc, zlen pad = 16 -> zlen (file ++ pad) < 4294967296 -> chained big file pos ts -> (length ts <= n)%nat ->
  exists is, ifd_chain n (file ++ pad) 0 pos big acc = Ok (acc ++ is) /\ Forall2 (reads big) ts is.
Proof.
  intros big file pad ts. induction ts as [|t ts IH]; intros n pos acc Hpad Hlen Hc Hn; [destruct Hc|]. destruct n as [|n]; [cbn in Hn; lia|]. rewrite ifd_chain_step, skip_zero. cbn [bind].
  destruct ts as [|t' ts].
  - cbn [chained] in Hc. destruct (written_read 10 big file pad pos 0 t Hpad Hlen Hc) as (i & I1 & I2 & I3). rewrite I1. cbn [bind]. rewrite I2. cbn [Z.eqb]. exists [i]. split; [reflexivity|]. repeat constructor. exact I3.
  - destruct Hc as (next & Hx & Hw & Hc). destruct (written_read 10 big file pad pos next t Hpad Hlen Hw) as (i & I1 & I2 & I3). rewrite I1. cbn [bind]. rewrite I2. replace (next =? 0) with false by lia.
    destruct (IH n next (acc ++ [i]) Hpad Hlen Hc ltac:(cbn [length] in *; lia)) as (is & J1 & J2). exists (i :: is). split; [rewrite J1, <- app_assoc; reflexivity|constructor; assumption].
Qed.
Lemma tree_parsed : forall big ts file, tree_file big ts file ->
  exists root, ifd_new_file (buffer_new file) = Ok root /\ (forall l, get_decoder l (buffer_new file) (zlen file) = by_tiff l (zlen file) root) /\ Nested big ts root.
Proof.
  intros big ts file [(start & Hh & Hst & Hc) Hk Hn Hs Hb].
  assert (Lp : zlen (zeros 16) = 16) by reflexivity. assert (Lb : zlen (file ++ zeros 16) < 4294967296) by (rewrite zlen_app; unfold zlen in *; lia).
  destruct (chain_read big file (zeros 16) ts 100 start [] Lp Lb Hc Hn) as (is & E & R). cbn [app] in E.
  assert (exists b4 b5 b6 b7 t, buffer_new file = (if big then [77; 77; 0; 42] else [73; 73; 42; 0]) ++ [b4; b5; b6; b7] ++ t /\ (8 <= length t)%nat) as (b4 & b5 & b6 & b7 & t & Eb & Lt).
  { destruct Hh as (b & a & Ef & L0). destruct b; [|cbn [length] in L0; lia]. destruct big; do 4 eexists; exists (a ++ zeros 16); (split; [|rewrite app_length; change (length (zeros 16)) with 16%nat; lia]);
      unfold buffer_new; rewrite Ef; cbn [app order_mark bytes_of little rev]; reflexivity. }
  exists (mkifd [] is 0 0 big).
  assert (Ei : ifd_new_file (buffer_new file) = Ok (mkifd [] is 0 0 big)).
    { unfold ifd_new_file. assert (Hf : at_is (buffer_new file) 0 W_FUJIFILM = Ok false) by (rewrite Eb; rewrite is_at by (unfold zlen; rewrite ?app_length; destruct big; cbn [length W_FUJIFILM]; lia); destruct big; reflexivity).
      rewrite Hf. cbn [bind]. unfold ifd_new_root.
      assert (H0 : at_pos (buffer_new file) 0 (order_mark big ++ bytes_of big 2 42 ++ bytes_of big 4 start)) by (apply at_placed; exact Hh).
      assert (Em : LEu16 (buffer_new file) 0 = Ok (if big then 0x4d4d else 0x4949)).
      { apply at_app in H0. unfold LEu16. rewrite (at_slice _ _ _ _ (proj1 H0)) by (destruct big; reflexivity). destruct big; reflexivity. }
      rewrite Em. cbn [bind].
      replace (if (if big then 19789 else 18761) =? 18761 then Ok LITTLE_ENDIAN else if (if big then 19789 else 18761) =? 19789 then Ok BIG_ENDIAN else Err "TIFF: don't know marker"%string)
        with (Ok big) by (destruct big; reflexivity).
      cbn [bind]. rewrite app_assoc in H0. apply at_app in H0. destruct H0 as [_ H0]. replace (zlen (order_mark big ++ bytes_of big 2 42)) with 4 in H0 by (destruct big; reflexivity).
      rewrite (ru32_at _ _ _ _ H0 Hst). cbn [bind]. unfold buffer_new in *. rewrite E. reflexivity. }
  split; [exact Ei|]. split.
  - intros l.
    assert (Hd : is_mrw (buffer_new file) = Ok false /\ is_ciff (buffer_new file) = Ok false /\ is_ari (buffer_new file) = Ok false /\ is_x3f (buffer_new file) = Ok false).
    { assert (Hx : is_ciff (buffer_new file) = Ok false).
      { destruct (P_Dispatch.at_is_buffer file 6 W_HEAPCCDR) as ([|] & X1 & X2); [discriminate|discriminate|cbn; lia| |exact X1].
        exfalso. apply Hk. destruct (proj1 X2 eq_refl) as (b & a & Ef & Lbb). exists b, a. split; [exact Ef|lia]. }
      clear Ei. rewrite Eb in *. clear - Lt Hx. split; [|split; [exact Hx|]]; clear Hx; do 8 (destruct t as [|? t]; [cbn in Lt; lia|]);
      repeat split; destruct big; unfold is_mrw, is_ari, is_x3f, at_is, BEu32, slice.
      all: try (cbn; reflexivity).
      all: unfold zlen; cbn [length app].
      all: match goal with |- context [if ?b then _ else _] => replace b with true by lia end; reflexivity. }
    destruct Hd as (H1 & H2 & H3 & H4). unfold get_decoder. rewrite H1. cbn [bind]. rewrite H2. cbn [bind]. rewrite H3. cbn [bind]. rewrite H4. cbn [bind]. rewrite Ei. reflexivity.
  - split.
    + apply sees_visible; [|reflexivity]. intros tag. apply root_found. exact R.
    + intros tag t' Ht. pose proof (root_leads big tag ts is 0 0 big R) as L. unfold directory_with in Ht. rewrite Ht in L. destruct L as (i & r & L1 & L2). exists i. split; [|exact L2].
      unfold find_first_ifd. rewrite L1. reflexivity.
    + intros tag Ht. pose proof (root_leads big tag ts is 0 0 big R) as L. unfold find_first_ifd. destruct (find (has_value tag) (flat_map all_trees ts)) as [t'|] eqn:F; [|rewrite L; reflexivity].
      exfalso. apply find_some in F. destruct F as [F1 F2]. apply Ht. unfold visible. apply firsts_tag. unfold has_value in F2. apply existsb_exists in F2. destruct F2 as (f & F3 & F4).
      apply in_map_iff. exists f. split; [lia|]. apply in_flat_map. exists t'. auto.
    + reflexivity.
    + exists is. auto.
Qed.
Lemma tree_opened : forall big ts file, tree_file big ts file ->
  exists root, (forall l, get_decoder l (buffer_new file) (zlen file) = by_tiff l (zlen file) root) /\ Nested big ts root.
Proof. intros big ts file H. destruct (tree_parsed _ _ _ H) as (root & _ & G & P). exists root. auto. Qed.
(** The numbers in a field *)
Lemma field_numbers : forall big fs i f, Sees big fs i -> In f fs -> integer_type (f_typ f) = true -> Forall (fun v => 0 <= v < 256 ^ type_size (f_typ f)) (f_vals f) ->
  exists en, find_entry i (f_tag f) = Some en /\ e_count en = Z.of_nat (length (f_vals f)) /\ forall k v, nth_error (f_vals f) k = Some v -> get_u32 en (Z.of_nat k) = Ok v.
Proof.
  intros big fs i f P Hf Ht Hv. destruct (s_in _ _ _ P _ Hf) as (en & E1 & E3). exists en. split; [exact E1|]. split; [apply E3|]. intros k v Hk. exact (get_u32_holds big f en k v Ht Hv E3 Hk).
Qed.
Lemma tree_fields : forall big ts file, tree_file big ts file ->
  exists root, ifd_new_file (buffer_new file) = Ok root /\
    (forall f, In f (visible ts) -> integer_type (f_typ f) = true -> Forall (fun v => 0 <= v < 256 ^ type_size (f_typ f)) (f_vals f) ->
       exists en, find_entry root (f_tag f) = Some en /\ e_count en = Z.of_nat (length (f_vals f)) /\ forall k v, nth_error (f_vals f) k = Some v -> get_u32 en (Z.of_nat k) = Ok v) /\
    (forall tag, has_no (visible ts) tag -> find_entry root tag = None) /\
    (forall tag t, directory_with ts tag t -> exists i, find_first_ifd root tag = Some i /\
       (forall f, In f (visible [t]) -> integer_type (f_typ f) = true -> Forall (fun v => 0 <= v < 256 ^ type_size (f_typ f)) (f_vals f) ->
          exists en, find_entry i (f_tag f) = Some en /\ e_count en = Z.of_nat (length (f_vals f)) /\ forall k v, nth_error (f_vals f) k = Some v -> get_u32 en (Z.of_nat k) = Ok v) /\
       (forall tag, has_no (visible [t]) tag -> find_entry i tag = None)).
Proof.
  intros big ts file H. destruct (tree_parsed _ _ _ H) as (root & E & _ & P). exists root. split; [exact E|]. pose proof (n_sees _ _ _ P) as S0. split; [|split].
  - intros f. apply (field_numbers big _ root f S0).
  - apply (s_no _ _ _ S0).
  - intros tag t Ht. destruct (n_with _ _ _ P tag t Ht) as (i & F & R). exists i. split; [exact F|]. pose proof (tree_sees _ _ _ R) as S1. split; [intros f; apply (field_numbers big _ i f S1)|apply (s_no _ _ _ S1)].
Qed.
End Any.
