(** A directory that contains itself many times. *)
From Coq Require Import String ZArith List Bool Lia ZifyBool ZifyNat.
From Verif Require Import Base Bytes Tiff Spec_Bits Spec_Tiff P_Base P_Bits P_Tiff1 P_Tiff2 P_Tiff3 P_Tiff5.
Import ListNotations.
Local Open Scope Z_scope.
Ltac Zify.zify_post_hook ::= Z.div_mod_to_equations.

Definition self_field (n : nat) : field := mkfield 0x014A 4 (repeat 8 n).
Fixpoint self_tree (n l : nat) : ifd :=
  match l with O => mkifd [] [] 0 0 false | S l' => mkifd [] (repeat (self_tree n l') n) 0 0 false end.

Lemma flat_map_length_const : forall {A B} (f : A -> list B) (c : nat) l, (forall x, In x l -> length (f x) = c) -> length (flat_map f l) = (length l * c)%nat.
Proof.
  induction l as [|x t IH]; intros H; [reflexivity|]. cbn [flat_map length]. rewrite app_length, IH, (H x); [lia|left; reflexivity|].
  intros y Hy. apply H. right. exact Hy.
Qed.
Lemma self_tree_size : forall n l, Z.of_nat n ^ Z.of_nat l <= Z.of_nat (length (directories (self_tree n l))).
Proof.
  intros n. induction l as [|l IH]; [cbn; lia|]. rewrite directories_eq. cbn [self_tree i_subs length].
  rewrite (flat_map_length_const _ (length (directories (self_tree n l)))) by (intros x Hx; apply repeat_spec in Hx; subst x; reflexivity).
  rewrite repeat_length. rewrite Nat2Z.inj_succ, Z.pow_succ_r by lia. nia.
Qed.
Section Any.
Context {M : Mode}.
Lemma self_levels : forall n l tail, (2 <= n)%nat -> let buf := tiff_file false [self_field n] ++ tail in zlen buf < 4294967296 ->
  ifd_levels l buf 8 0 0 false = Ok (self_tree n l).
Proof.
  intros n l tail Hn buf Hlen. destruct (file_parts false [self_field n] tail ltac:(cbn; lia)) as (_ & D1 & D2 & D3 & D4).
  fold buf in D1, D2, D3, D4. change (zlen [self_field n]) with 1 in *. cbn [field_entries] in D2. apply at_app in D2. destruct D2 as [D2 _].
  unfold outside_data in D4. cbn [flat_map] in D4. apply at_app in D4. destruct D4 as [D4 _].
  assert (Et : ru16 false buf (8 + 2 + 0 * 12) = Ok 0x14A) by (apply ru16_at; [|lia]; unfold field_entry in D2; apply at_app in D2; apply D2).
  destruct (entry_at false buf _ _ 8 (self_field n) ltac:(cbn; lia) ltac:(cbn; lia) Hlen D2 D4 ltac:(lia)) as [en [En Hen]].
  change 10 with (8 + 2 + 0 * 12) in En.
  assert (Hv : forall k, 0 <= k < Z.of_nat n -> get_u32 en k = Ok 8).
  { intros k Hk. replace k with (Z.of_nat (Z.to_nat k)) by lia. eapply (get_u32_holds false (self_field n)); [reflexivity| |exact Hen|].
    - apply Forall_forall. intros x Hx. apply repeat_spec in Hx. subst x. cbn. lia.
    - cbn [self_field f_vals]. apply nth_error_repeat. lia. }
  destruct Hen as (E1 & _ & E3 & _). cbn [self_field f_tag f_vals] in E1, E3. unfold zlen in E3. rewrite repeat_length in E3.
  induction l as [|l IH]; cbn [ifd_levels self_tree].
  - rewrite body_step, D1. cbn [bind]. change (4000 <? 1) with false. change (zrange 0 1) with [0]. cbn [rfold]. unfold step. cbv zeta.
    rewrite Et. cbn [bind]. change (known_tag 330) with true. cbn [negb]. rewrite En. cbn [bind]. rewrite E1. change (is_subifd_tag 330) with true.
    cbn [bind]. rewrite D3. reflexivity.
  - rewrite body_step, D1. cbn [bind]. change (4000 <? 1) with false. change (zrange 0 1) with [0]. cbn [rfold]. unfold step. cbv zeta.
    rewrite Et. cbn [bind]. change (known_tag 330) with true. cbn [negb]. rewrite En. cbn [bind]. rewrite E1. change (is_subifd_tag 330) with true.
    rewrite E3.
    destruct (rfold_zrange (fun i st => off <- get_u32 en i;; add_sub (ifd_levels l buf off 0 0 false) en st)
      (fun k st => st = ([], repeat (self_tree n l) (Z.to_nat k))) 0 (Z.of_nat n) ([], [])) as [st [R1 R2]]; [lia|reflexivity| |].
    { intros k s1 Hk ->. rewrite (Hv k Hk). cbn [bind]. rewrite IH. cbn [add_sub]. eexists. split; [reflexivity|].
      replace (Z.to_nat (k + 1)) with (Z.to_nat k + 1)%nat by lia. rewrite repeat_app. reflexivity. }
    rewrite R1, R2. cbn [bind]. rewrite D3, Nat2Z.id. reflexivity.
Qed.
Lemma zlen_self : forall n, (2 <= n)%nat -> zlen (tiff_file false [self_field n]) = 26 + 4 * Z.of_nat n.
Proof.
  intros n Hn. unfold tiff_file, directory. rewrite !zlen_app, !zlen_bytes_of. cbn [field_entries outside_data flat_map].
  rewrite !app_nil_r. unfold field_entry. rewrite !zlen_app, !zlen_bytes_of.
  pose proof (field_data_length false (self_field n) ltac:(cbn; lia)) as L. change (type_size (f_typ (self_field n))) with 4 in L. cbn [self_field f_vals] in L. unfold zlen at 2 in L. rewrite repeat_length in L.
  unfold inline. fold (self_field n) in *. fold (zlen (field_data false (self_field n))). rewrite L. replace (Z.of_nat n * 4 <=? 4) with false by lia. rewrite zlen_bytes_of, L. change (zlen [73;73]) with 2. lia.
Qed.
Theorem blowup : forall n, (2 <= n)%nat -> Z.of_nat n < 2 ^ 29 -> exists file root,
  Z.of_nat (length file) = 26 + 4 * Z.of_nat n /\ bytes file /\ ifd_new_file file = Ok root /\
  Z.of_nat n ^ 10 < Z.of_nat (length (directories root)).
Proof.
  intros n Hn Hb. exists (tiff_file false [self_field n]), (mkifd [] [self_tree n 10] 0 0 false). pose proof (zlen_self n Hn) as L.
  split; [exact L|]. split; [|split].
  - unfold tiff_file, directory, bytes. assert (LB : forall k v, bytes (bytes_of false k v)).
    { induction k as [|k IH]; intros v; cbn [bytes_of little]; [constructor|]. constructor; [unfold byte; lia|apply IH]. }
    assert (FD : bytes (field_data false (self_field n))).
    { unfold field_data. apply Forall_forall. intros x Hx. apply in_flat_map in Hx. destruct Hx as [y [_ Hx]]. specialize (LB (Z.to_nat (type_size (f_typ (self_field n)))) y).
      unfold bytes in LB. rewrite Forall_forall in LB. apply LB. exact Hx. }
    cbn [field_entries outside_data flat_map]. unfold field_entry. unfold bytes in *. rewrite !Forall_app. repeat split; try (apply LB); try constructor.
    + unfold byte; lia.
    + constructor; [unfold byte; lia|constructor].
    + destruct (inline false (self_field n)); [|apply LB]. apply Forall_firstn, Forall_app. split; [exact FD|]. repeat constructor; lia.
    + destruct (inline false (self_field n)); [constructor|exact FD].
  - pose proof (self_levels n 10 [] Hn) as S. cbv zeta in S. rewrite app_nil_r in S.
    destruct (file_parts false [self_field n] [] ltac:(cbn; lia)) as (Hm & _). rewrite app_nil_r in Hm. apply Hm; [|reflexivity].
    apply S. change (2 ^ 29) with 536870912 in Hb. lia.
  - rewrite directories_eq. cbn [i_subs flat_map length]. rewrite app_nil_r. pose proof (self_tree_size n 10). change (Z.of_nat 10) with 10 in *. lia.
Qed.
End Any.

(** The directories below the root, and the root. *)
Lemma find_entry_spec : forall i tag,
  match find_entry i tag with
  | Some e => exists above d below, directories i = above ++ d :: below /\ In (tag, e) (i_entries d) /\
      (forall a, In a above -> has_tag a tag = false)
  | None => forall d, part_of i d -> has_tag d tag = false
  end.
Proof.
  intros i tag. rewrite find_first.
  assert (G : forall d, tagged tag d = [] <-> has_tag d tag = false).
  { intros d. unfold tagged, has_tag. induction (i_entries d) as [|[k e] t IH]; [split; reflexivity|]. cbn. destruct (k =? tag); cbn; [split; discriminate|exact IH]. }
  assert (K : forall l, match hd_error (flat_map (tagged tag) l) with
    | Some e => exists above d below, l = above ++ d :: below /\ In (tag, e) (i_entries d) /\ (forall a, In a above -> has_tag a tag = false)
    | None => forall d, In d l -> has_tag d tag = false end).
  { induction l as [|d t IH]; [cbn; intros d []|]. cbn [flat_map]. rewrite hd_app. destruct (tagged tag d) as [|e r] eqn:E.
    - cbn [hd_error]. destruct (hd_error _) as [e|].
      + destruct IH as (above & d' & below & -> & H1 & H2). exists (d :: above), d', below. split; [reflexivity|split; [exact H1|]].
        intros a [<-|Ha]; [apply G; exact E|apply H2; exact Ha].
      + intros d' [<-|Hd]; [apply G; exact E|apply IH; exact Hd].
    - cbn [hd_error]. exists [], d, t. split; [reflexivity|split; [|intros a []]].
      assert (In e (tagged tag d)) by (rewrite E; left; reflexivity). unfold tagged in H. apply in_map_iff in H. destruct H as [[k x] [H1 H2]].
      apply filter_In in H2. destruct H2 as [H2 H3]. cbn in *. subst x. replace tag with k by lia. exact H2. }
  specialize (K (directories i)). destruct (hd_error _); [exact K|]. intros d Hd. apply K, directories_part. exact Hd.
Qed.

Section Facts.
Context {M : Mode}.
Lemma find_parsed : forall file root tag en, bytes file -> ifd_new_file file = Ok root -> find_entry root tag = Some en ->
  e_tag en = tag /\ owns file en.
Proof.
  intros file root tag en Hb H Hf. apply ifd_new_file_inv in H; [|exact Hb]. destruct H as [_ H].
  pose proof (find_entry_spec root tag) as S. rewrite Hf in S. destruct S as (x & d & y & E & S & _).
  assert (P : part_of root d) by (apply directories_part; rewrite E; apply in_or_app; right; left; reflexivity).
  destruct (H d P) as (F & _). rewrite Forall_forall in F. destruct (F _ S) as (F1 & _ & F3). auto.
Qed.
Lemma shape : forall file root, bytes file -> ifd_new_file file = Ok root ->
  (nesting root <= 13)%nat /\
  forall d, part_of root d -> (length (i_entries d) <= 85)%nat /\ NoDup (map fst (i_entries d)) /\
    Z.of_nat (length (i_subs d)) <= 4000 * Z.of_nat (length file).
Proof.
  intros file root Hb H. apply ifd_new_file_inv in H; [|exact Hb]. destruct H as [H1 H2]. split; [exact H1|].
  intros d Hd. specialize (H2 d Hd). split; [eapply dir_entries; exact H2|]. destruct H2 as (_ & N & L). split; [exact N|exact L].
Qed.
Lemma root_shape : forall file off root, bytes file -> ifd_new_root file off = Ok root ->
  (length (i_subs root) <= 100)%nat /\ (nesting root <= 12)%nat.
Proof. intros file off root Hb H. apply ifd_new_root_inv in H; [|exact Hb]. destruct H as ((H1 & _) & H2 & _). auto. Qed.
Lemma dir_shape : forall l file off base start e d, bytes file -> ifd_levels l file off base start e = Ok d -> (nesting d <= S l)%nat.
Proof. intros l file off base start e d Hb H. eapply (ifd_levels_inv l file) in H; [apply H|exact Hb|apply ends_with_refl]. Qed.
Lemma values_readable : forall file root d tag en idx, bytes file -> ifd_new_file file = Ok root -> part_of root d -> In (tag, en) (i_entries d) ->
  owns file en /\ (integer_type (e_typ en) = true -> 0 <= idx < e_count en -> exists v, get_u32 en idx = Ok v).
Proof.
  intros file root d tag en idx Hb H Hd Hi. apply ifd_new_file_inv in H; [|exact Hb]. destruct H as [_ H]. destruct (H d Hd) as (F & _).
  rewrite Forall_forall in F. destruct (F _ Hi) as (_ & _ & F3). split; [exact F3|]. intros. eapply get_u32_reads; eassumption.
Qed.
End Facts.
