(** Proofs about directory trees. *)
From Coq Require Import String ZArith List Bool Lia ZifyBool ZifyNat.
From Verif Require Import Base Bytes Tiff Ciff Spec_Bits Spec_Tiff P_Base.
Import ListNotations.
Local Open Scope Z_scope.
Ltac Zify.zify_post_hook ::= Z.div_mod_to_equations.

(** Induction on trees. *)
Lemma ifd_ind' : forall (P : ifd -> Prop),
  (forall en subs nx st e, Forall P subs -> P (mkifd en subs nx st e)) -> forall i, P i.
Proof.
  intros P H. fix IH 1. intros [en subs nx st e]. apply H.
  induction subs as [|s t IHt]; constructor; [apply IH|exact IHt].
Qed.
Lemma cifd_ind' : forall (P : cifd -> Prop), (forall en subs, Forall P subs -> P (mkcifd en subs)) -> forall i, P i.
Proof.
  intros P H. fix IH 1. intros [en subs]. apply H.
  induction subs as [|s t IHt]; constructor; [apply IH|exact IHt].
Qed.

Lemma directories_eq : forall i, directories i = i :: flat_map directories (i_subs i).
Proof. intros [en subs nx st e]. cbn [directories i_subs]. f_equal. Qed.
Lemma cdirectories_eq : forall i, cdirectories i = i :: flat_map cdirectories (ci_subs i).
Proof. intros [en subs]. cbn [cdirectories ci_subs]. f_equal. Qed.

Lemma part_trans : forall a b c, part_of a b -> part_of b c -> part_of a c.
Proof. intros a b c H1 H2. induction H2; [exact H1|]. econstructor 2; eassumption. Qed.
Lemma directories_part : forall i d, In d (directories i) <-> part_of i d.
Proof.
  intros i d. split.
  - revert d. induction i as [en subs nx st e IH] using ifd_ind'. intros d H. rewrite directories_eq in H. cbn [i_subs] in H.
    destruct H as [->|H]; [constructor|]. apply in_flat_map in H. destruct H as [s [H1 H2]].
    apply (part_trans _ s); [econstructor 2; [constructor|exact H1]|]. rewrite Forall_forall in IH. apply IH; assumption.
  - intros H. induction H as [|d s _ IH Hs].
    + rewrite directories_eq. left. reflexivity.
    + assert (G : forall i d s, In d (directories i) -> In s (i_subs d) -> In s (directories i)).
      { clear. induction i as [en subs nx st e IH] using ifd_ind'. intros d s H1 H2. rewrite directories_eq in H1 |- *. cbn [i_subs] in *.
        destruct H1 as [<-|H1].
        - right. apply in_flat_map. exists s. split; [exact H2|]. rewrite directories_eq. left. reflexivity.
        - right. apply in_flat_map in H1. destruct H1 as [x [X1 X2]]. apply in_flat_map. exists x. split; [exact X1|].
          rewrite Forall_forall in IH. eapply IH; eassumption. }
      eapply G; eassumption.
Qed.
Lemma cpart_trans : forall a b c, cpart_of a b -> cpart_of b c -> cpart_of a c.
Proof. intros a b c H1 H2. induction H2; [exact H1|]. econstructor 2; eassumption. Qed.
Lemma cdirectories_part : forall i d, In d (cdirectories i) <-> cpart_of i d.
Proof.
  intros i d. split.
  - revert d. induction i as [en subs IH] using cifd_ind'. intros d H. rewrite cdirectories_eq in H. cbn [ci_subs] in H.
    destruct H as [->|H]; [constructor|]. apply in_flat_map in H. destruct H as [s [H1 H2]].
    apply (cpart_trans _ s); [econstructor 2; [constructor|exact H1]|]. rewrite Forall_forall in IH. apply IH; assumption.
  - intros H. induction H as [|d s _ IH Hs].
    + rewrite cdirectories_eq. left. reflexivity.
    + assert (G : forall i d s, In d (cdirectories i) -> In s (ci_subs d) -> In s (cdirectories i)).
      { clear. induction i as [en subs IH] using cifd_ind'. intros d s H1 H2. rewrite cdirectories_eq in H1 |- *. cbn [ci_subs] in *.
        destruct H1 as [<-|H1].
        - right. apply in_flat_map. exists s. split; [exact H2|]. rewrite cdirectories_eq. left. reflexivity.
        - right. apply in_flat_map in H1. destruct H1 as [x [X1 X2]]. apply in_flat_map. exists x. split; [exact X1|].
          rewrite Forall_forall in IH. eapply IH; eassumption. }
      eapply G; eassumption.
Qed.

(** ** C21 *)
Lemma lookup_find : forall {A} (m : list (Z * A)) k, lookup m k = option_map snd (find (fun p => fst p =? k) m).
Proof. induction m as [|[a b] t IH]; intros k; cbn; [reflexivity|]. destruct (a =? k); [reflexivity|apply IH]. Qed.
Lemma find_filter : forall {A} (f : A -> bool) l, find f l = hd_error (filter f l).
Proof. induction l as [|x t IH]; cbn; [reflexivity|]. destruct (f x); [reflexivity|exact IH]. Qed.
Lemma contains_has : forall i tag, contains i tag = has_tag i tag.
Proof.
  intros [en subs nx st e] tag. unfold contains, has_tag. cbn [i_entries]. induction en as [|[a b] t IH]; cbn; [reflexivity|].
  destruct (a =? tag); [reflexivity|exact IH].
Qed.

(** The entries with the tag, in the order of the directories. *)
Definition tagged (tag : Z) (d : ifd) : list entry := map snd (filter (fun p => fst p =? tag) (i_entries d)).
Lemma lookup_tagged : forall d tag, lookup (i_entries d) tag = hd_error (tagged tag d).
Proof.
  intros d tag. unfold tagged. rewrite lookup_find, find_filter. destruct (filter _ _); reflexivity.
Qed.
Lemma hd_app : forall {A} (a b : list A), hd_error (a ++ b) = match hd_error a with Some x => Some x | None => hd_error b end.
Proof. intros A [|x a] b; reflexivity. Qed.
Lemma find_first : forall i tag, find_entry i tag = hd_error (flat_map (tagged tag) (directories i)).
Proof.
  induction i as [en subs nx st e IH] using ifd_ind'. intros tag. cbn [find_entry].
  rewrite directories_eq. cbn [flat_map i_subs]. rewrite hd_app, <- lookup_tagged. cbn [i_entries].
  destruct (lookup en tag) as [x|]; [reflexivity|]. clear en nx st e.
  induction subs as [|s t IHt]; [reflexivity|]. cbn [flat_map]. rewrite flat_map_app, hd_app, <- (Forall_inv IH).
  destruct (find_entry s tag) as [x|]; [reflexivity|]. apply IHt. exact (Forall_inv_tail IH).
Qed.
Lemma has_tagged : forall d tag, has_tag d tag = true <-> exists e, In (tag, e) (i_entries d).
Proof.
  intros d tag. unfold has_tag. rewrite existsb_exists. split.
  - intros [[k e] [H1 H2]]. cbn in H2. exists e. replace tag with k by lia. exact H1.
  - intros [e H]. exists (tag, e). split; [exact H|]. cbn. lia.
Qed.
Lemma find_some : forall i tag, (exists e, find_entry i tag = Some e) <-> exists d, part_of i d /\ has_tag d tag = true.
Proof.
  intros i tag. rewrite find_first. split.
  - intros [e H]. assert (HI : In e (flat_map (tagged tag) (directories i))) by (destruct (flat_map _ _); cbn in H; [discriminate|]; left; congruence).
    apply in_flat_map in HI. destruct HI as [d [H1 H2]]. exists d. split; [apply directories_part; exact H1|].
    unfold tagged in H2. apply in_map_iff in H2. destruct H2 as [[k x] [E H2]]. apply filter_In in H2. destruct H2 as [H2 H3].
    apply has_tagged. exists x. cbn in H3. replace tag with k by lia. exact H2.
  - intros [d [H1 H2]]. apply directories_part in H1. apply has_tagged in H2. destruct H2 as [e H2].
    assert (HI : In e (flat_map (tagged tag) (directories i))).
    { apply in_flat_map. exists d. split; [exact H1|]. unfold tagged. apply in_map_iff. exists (tag, e). split; [reflexivity|].
      apply filter_In. split; [exact H2|]. cbn. lia. }
    destruct (flat_map _ _) as [|x t]; [destruct HI|]. exists x. reflexivity.
Qed.
Lemma has_some : forall i tag, has_entry i tag = true <-> exists d, part_of i d /\ has_tag d tag = true.
Proof.
  intros i tag. rewrite <- find_some. unfold has_entry. destruct (find_entry i tag) as [e|]; split; try discriminate; [eauto|auto|].
  intros [e H]. discriminate.
Qed.

(** ** C22 *)
Lemma find_ifds_eq : forall i tag, find_ifds_with_tag i tag =
  filter (fun d => has_tag d tag) [i] ++ flat_map (fun d => if has_tag d tag then [d; d] else []) (tl (directories i)).
Proof.
  induction i as [en subs nx st e IH] using ifd_ind'. intros tag. cbn [find_ifds_with_tag].
  rewrite directories_eq. cbn [tl i_subs]. set (i := mkifd en subs nx st e). rewrite contains_has.
  cbn [filter]. f_equal. clearbody i. clear en nx st e.
  induction subs as [|s t IHt]; [reflexivity|]. cbn [flat_map]. rewrite flat_map_app. rewrite <- IHt by exact (Forall_inv_tail IH).
  rewrite (Forall_inv IH), contains_has. rewrite app_assoc. f_equal.
  rewrite (directories_eq s). cbn [tl flat_map filter]. destruct (has_tag s tag); reflexivity.
Qed.
Lemma find_first_ifd_eq : forall i tag, find_first_ifd i tag = find (fun d => has_tag d tag) (directories i).
Proof.
  intros i tag. unfold find_first_ifd. rewrite find_ifds_eq. rewrite (directories_eq i). cbn [tl filter find].
  destruct (has_tag i tag); [reflexivity|]. cbn [app]. induction (flat_map directories (i_subs i)) as [|d t IH]; [reflexivity|].
  cbn [flat_map find]. destruct (has_tag d tag); [reflexivity|exact IH].
Qed.
Lemma find_ifds_In : forall i tag d, In d (find_ifds_with_tag i tag) <-> part_of i d /\ has_tag d tag = true.
Proof.
  intros i tag d. rewrite find_ifds_eq, <- directories_part, (directories_eq i). cbn [tl]. rewrite in_app_iff, filter_In, in_flat_map. cbn [In].
  split.
  - intros [[[H|[]] H2]|[x [H1 H2]]]; [auto|]. destruct (has_tag x tag) eqn:E; [|destruct H2]. destruct H2 as [<-|[<-|[]]]; auto.
  - intros [[H|H] H2]; [left; auto|right]. exists d. rewrite H2. split; [exact H|left; reflexivity].
Qed.

(** The same for CIFF. *)
Definition ctagged (tag : Z) (d : cifd) : list centry := map snd (filter (fun p => fst p =? tag) (ci_entries d)).
Lemma clookup_tagged : forall d tag, lookup (ci_entries d) tag = hd_error (ctagged tag d).
Proof. intros d tag. unfold ctagged. rewrite lookup_find, find_filter. destruct (filter _ _); reflexivity. Qed.
Lemma cfind_first : forall i tag, cfind_entry i tag = hd_error (flat_map (ctagged tag) (cdirectories i)).
Proof.
  induction i as [en subs IH] using cifd_ind'. intros tag. cbn [cfind_entry].
  rewrite cdirectories_eq. cbn [flat_map ci_subs]. rewrite hd_app, <- clookup_tagged. cbn [ci_entries].
  destruct (lookup en tag) as [x|]; [reflexivity|]. clear en.
  induction subs as [|s t IHt]; [reflexivity|]. cbn [flat_map]. rewrite flat_map_app, hd_app, <- (Forall_inv IH).
  destruct (cfind_entry s tag) as [x|]; [reflexivity|]. apply IHt. exact (Forall_inv_tail IH).
Qed.
Lemma chas_tagged : forall d tag, chas_tag d tag = true <-> exists e, In (tag, e) (ci_entries d).
Proof.
  intros d tag. unfold chas_tag. rewrite existsb_exists. split.
  - intros [[k e] [H1 H2]]. cbn in H2. exists e. replace tag with k by lia. exact H1.
  - intros [e H]. exists (tag, e). split; [exact H|]. cbn. lia.
Qed.
Lemma cfind_some : forall i tag, (exists e, cfind_entry i tag = Some e) <-> exists d, cpart_of i d /\ chas_tag d tag = true.
Proof.
  intros i tag. rewrite cfind_first. split.
  - intros [e H]. assert (HI : In e (flat_map (ctagged tag) (cdirectories i))) by (destruct (flat_map _ _); cbn in H; [discriminate|]; left; congruence).
    apply in_flat_map in HI. destruct HI as [d [H1 H2]]. exists d. split; [apply cdirectories_part; exact H1|].
    unfold ctagged in H2. apply in_map_iff in H2. destruct H2 as [[k x] [E H2]]. apply filter_In in H2. destruct H2 as [H2 H3].
    apply chas_tagged. exists x. cbn in H3. replace tag with k by lia. exact H2.
  - intros [d [H1 H2]]. apply cdirectories_part in H1. apply chas_tagged in H2. destruct H2 as [e H2].
    assert (HI : In e (flat_map (ctagged tag) (cdirectories i))).
    { apply in_flat_map. exists d. split; [exact H1|]. unfold ctagged. apply in_map_iff. exists (tag, e). split; [reflexivity|].
      apply filter_In. split; [exact H2|]. cbn. lia. }
    destruct (flat_map _ _) as [|x t]; [destruct HI|]. exists x. reflexivity.
Qed.
