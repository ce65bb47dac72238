(** Invariants of parsed CIFF directories. *)
From Coq Require Import String ZArith List Bool Lia ZifyBool ZifyNat.
From Verif Require Import Base Bytes Tiff Ciff Spec_Bits Spec_Tiff P_Base P_Bits P_Tiff1 P_Tiff2 P_Tiff3.
Import ListNotations.
Local Open Scope Z_scope.
Ltac Zify.zify_post_hook ::= Z.div_mod_to_equations.
Local Ltac inv_bind H :=
  let a := fresh "a" in let E := fresh "E" in
  apply bind_inv in H; destruct H as [a [E H]].

Definition centry_ok (file : list Z) (p : Z * centry) : Prop := fst p = ce_tag (snd p) /\ cowns file (snd p).
Definition cdir_ok (file : list Z) (d : cifd) : Prop :=
  Forall (centry_ok file) (ci_entries d) /\ NoDup (map fst (ci_entries d)) /\ zlen (ci_subs d) + zlen (ci_entries d) <= 65535.
Definition ctree_ok (file : list Z) (n : nat) (i : cifd) : Prop := (cnesting i <= n)%nat /\ forall d, cpart_of i d -> cdir_ok file d.

Lemma eshift : forall t, 2 ^ element_shift t = ctype_size t /\ 0 <= element_shift t.
Proof. intros t. unfold element_shift, ctype_size. destruct (t =? 4096); [split; [reflexivity|lia]|]. destruct (_ || _ || _ || _); split; (reflexivity || lia). Qed.
Lemma centry_new_inv : forall buf vd o en, bytes buf -> centry_new buf vd o = Ok en -> cowns buf en.
Proof.
  intros buf vd o en Hb H. unfold centry_new in H. inv_bind H. cbv zeta in H. inv_bind H. destruct a0 as [bs doff]. inv_bind H. injection H as <-.
  pose proof (slice_inv _ _ _ _ E1) as (S1 & S2 & S3). destruct (eshift (Z.land a 14336)) as [T1 T2].
  split; cbn [ce_count ce_data ce_typ].
  - rewrite Z.shiftr_div_pow2, T1 by exact T2. f_equal. rewrite S3, firstn_length, skipn_length. unfold zlen in *. lia.
  - eapply piece; [apply ends_with_refl|exact E1].
Qed.
Lemma cnesting_eq : forall i, cnesting i = S (fold_right Nat.max O (map cnesting (ci_subs i))).
Proof. intros [en subs]. cbn [cnesting ci_subs]. f_equal. induction subs as [|s t IH]; cbn; [reflexivity|]. rewrite IH. reflexivity. Qed.
Lemma cpart_cases : forall i d, cpart_of i d -> d = i \/ exists s, In s (ci_subs i) /\ cpart_of s d.
Proof.
  intros i d H. apply cdirectories_part in H. rewrite cdirectories_eq in H. destruct H as [->|H]; [auto|right].
  apply in_flat_map in H. destruct H as [s [H1 H2]]. exists s. split; [exact H1|apply cdirectories_part; exact H2].
Qed.
Lemma ctree_ok_node : forall file n i, cdir_ok file i -> Forall (ctree_ok file n) (ci_subs i) -> ctree_ok file (S n) i.
Proof.
  intros file n i H1 H2. split.
  - rewrite cnesting_eq. apply le_n_S. clear H1. induction (ci_subs i) as [|s t IH]; cbn; [lia|].
    destruct (Forall_inv H2) as [H _]. specialize (IH (Forall_inv_tail H2)). lia.
  - intros d H. apply cpart_cases in H. destruct H as [->|[s [G1 G2]]]; [exact H1|].
    rewrite Forall_forall in H2. destruct (H2 s G1) as [_ K]. apply K. exact G2.
Qed.
Lemma insert_len : forall {A} (m : list (Z * A)) k v, zlen (insert m k v) <= zlen m + 1.
Proof.
  intros A m k v. pose proof (zlen_map fst (insert m k v)) as H1. pose proof (zlen_map fst m) as H2.
  destruct (insert_keys m k v) as [[E _]|[E _]]; rewrite E in H1; [|rewrite zlen_app in H1; cbn in H1]; lia.
Qed.
Section Any.
Context {M : Mode}.
Lemma cifd_body_inv : forall n d b x y i, bytes b -> (forall p, d = Some p -> forall x y i, p b x y = Ok i -> ctree_ok b n i) ->
  cifd_body d b x y = Ok i -> ctree_ok b (S n) i.
Proof.
  intros n d b x y i Hb Hd H. unfold cifd_body in H. inv_bind H. inv_bind H. inv_bind H. inv_bind H. destruct a2 as [en sb]. injection H as <-.
  assert (Hc : 0 <= a1 < 65536) by (eapply (ru16_range false); [exact Hb|exact E1]).
  eapply (rfold_count _ (fun k s => (Forall (centry_ok b) (fst s) /\ NoDup (map fst (fst s)) /\ Forall (ctree_ok b n) (snd s)) /\
    zlen (snd s) + zlen (fst s) <= k)) with (k := 0) in E2.
  - destruct E2 as [(R1 & R2 & R3) R4]. rewrite zlen_zrange in R4. cbn [fst snd] in *. apply ctree_ok_node; [|exact R3].
    split; [exact R1|split; [exact R2|]]. cbn [ci_subs ci_entries]. lia.
  - clear E2. intros k [en1 sb1] s2 j _ [(I1 & I2 & I3) I4] H. cbn [fst snd] in *. inv_bind H. pose proof (centry_new_inv _ _ _ _ Hb E2) as O.
    pose proof (insert_len en1 (ce_tag a2) a2) as L.
    assert (K : (Forall (centry_ok b) (insert en1 (ce_tag a2) a2) /\ NoDup (map fst (insert en1 (ce_tag a2) a2)) /\ Forall (ctree_ok b n) sb1)).
    { split; [apply insert_Forall; [exact I1|split; [reflexivity|exact O]]|split; [apply insert_NoDup; exact I2|exact I3]]. }
    destruct ((ce_typ a2 =? 10240) || (ce_typ a2 =? 12288)).
    + destruct d as [p|]; [|injection H as <-; cbn [fst snd]; auto with zarith].
      destruct (p b (ce_offset a2) (ce_offset a2 + ce_bytesize a2)) as [i|m| |] eqn:Ep; try discriminate; injection H as <-; cbn [fst snd].
      * split; [split; [exact I1|split; [exact I2|]]|rewrite zlen_app; cbn; lia]. apply Forall_app. split; [exact I3|]. constructor; [|constructor].
        eapply Hd; [reflexivity|exact Ep].
      * split; [exact K|lia].
    + injection H as <-. cbn [fst snd]. split; [exact K|lia].
  - cbn [fst snd]. split; [split; [|split]; constructor|unfold zlen; cbn; lia].
Qed.
Lemma cifd_levels_inv : forall l b x y i, bytes b -> cifd_levels l b x y = Ok i -> ctree_ok b (S l) i.
Proof.
  induction l as [|l IH]; intros b x y i Hb H; cbn [cifd_levels] in H.
  - eapply cifd_body_inv in H; [exact H|exact Hb|]. intros p Hp. discriminate.
  - eapply cifd_body_inv in H; [exact H|exact Hb|]. intros p Hp. injection Hp as <-. intros x' y' i'. apply IH. exact Hb.
Qed.
Lemma cifd_new_file_inv : forall b s i, bytes b -> cifd_new_file b s = Ok i -> ctree_ok b 10 i.
Proof. intros b s i Hb H. unfold cifd_new_file in H. inv_bind H. eapply cifd_levels_inv; eassumption. Qed.
End Any.
Lemma cget_u32_reads : forall file en idx, cowns file en -> cinteger_type (ce_typ en) = true -> 0 <= idx < ce_count en ->
  exists v, cget_u32 en idx = Ok v.
Proof.
  intros file en idx [O _] Ht Hi. unfold cinteger_type in Ht. unfold cget_u32. fold (zlen (ce_data en)) in O. pose proof (zlen_nonneg (ce_data en)).
  unfold ctype_size in O.
  destruct (ce_typ en =? 4096) eqn:E1.
  { replace (ce_typ en) with 4096 by lia. cbn - [LEu16 Z.mul]. apply (ru16_reads false); lia. }
  destruct ((ce_typ en =? 6144) || (ce_typ en =? 8192) || (ce_typ en =? 10240) || (ce_typ en =? 12288)) eqn:E2.
  { replace ((ce_typ en =? 0) || (ce_typ en =? 32768)) with false by lia. apply (ru32_reads false); lia. }
  replace ((ce_typ en =? 0) || (ce_typ en =? 32768)) with true by lia. rewrite get_ok by lia. eexists; reflexivity.
Qed.
Section Facts.
Context {M : Mode}.
Lemma cshape : forall file size root, bytes file -> cifd_new_file file size = Ok root ->
  (cnesting root <= 10)%nat /\
  forall d, cpart_of root d -> NoDup (map fst (ci_entries d)) /\ (Z.of_nat (length (ci_subs d)) + Z.of_nat (length (ci_entries d)) <= 65535).
Proof.
  intros file size root Hb H. apply cifd_new_file_inv in H; [|exact Hb]. destruct H as [H1 H2]. split; [exact H1|].
  intros d Hd. destruct (H2 d Hd) as (_ & N & L). split; [exact N|exact L].
Qed.
Lemma cvalues_readable : forall file size root d tag en idx, bytes file -> cifd_new_file file size = Ok root -> cpart_of root d -> In (tag, en) (ci_entries d) ->
  ce_tag en = tag /\ cowns file en /\ (cinteger_type (ce_typ en) = true -> 0 <= idx < ce_count en -> exists v, cget_u32 en idx = Ok v).
Proof.
  intros file size root d tag en idx Hb H Hd Hi. apply cifd_new_file_inv in H; [|exact Hb]. destruct H as [_ H]. destruct (H d Hd) as (F & _).
  rewrite Forall_forall in F. destruct (F _ Hi) as (F1 & F3). split; [symmetry; exact F1|]. split; [exact F3|]. intros. eapply cget_u32_reads; eassumption.
Qed.
End Facts.
Lemma cfind_entry_spec : forall i tag,
  match cfind_entry i tag with
  | Some e => exists above d below, cdirectories i = above ++ d :: below /\ In (tag, e) (ci_entries d) /\
      (forall a, In a above -> chas_tag a tag = false)
  | None => forall d, cpart_of i d -> chas_tag d tag = false
  end.
Proof.
  intros i tag. rewrite cfind_first.
  assert (G : forall d, ctagged tag d = [] <-> chas_tag d tag = false).
  { intros d. unfold ctagged, chas_tag. induction (ci_entries d) as [|[k e] t IH]; [split; reflexivity|]. cbn. destruct (k =? tag); cbn; [split; discriminate|exact IH]. }
  assert (K : forall l, match hd_error (flat_map (ctagged tag) l) with
    | Some e => exists above d below, l = above ++ d :: below /\ In (tag, e) (ci_entries d) /\ (forall a, In a above -> chas_tag a tag = false)
    | None => forall d, In d l -> chas_tag d tag = false end).
  { induction l as [|d t IH]; [cbn; intros d []|]. cbn [flat_map]. rewrite hd_app. destruct (ctagged tag d) as [|e r] eqn:E.
    - cbn [hd_error]. destruct (hd_error _) as [e|].
      + destruct IH as (above & d' & below & -> & H1 & H2). exists (d :: above), d', below. split; [reflexivity|split; [exact H1|]].
        intros a [<-|Ha]; [apply G; exact E|apply H2; exact Ha].
      + intros d' [<-|Hd]; [apply G; exact E|apply IH; exact Hd].
    - cbn [hd_error]. exists [], d, t. split; [reflexivity|split; [|intros a []]].
      assert (In e (ctagged tag d)) by (rewrite E; left; reflexivity). unfold ctagged in H. apply in_map_iff in H. destruct H as [[k x] [H1 H2]].
      apply filter_In in H2. destruct H2 as [H2 H3]. cbn in *. subst x. replace tag with k by lia. exact H2. }
  specialize (K (cdirectories i)). destruct (hd_error _); [exact K|]. intros d Hd. apply K, cdirectories_part. exact Hd.
Qed.
