(** Invariants of parsed directories. *)
From Coq Require Import String ZArith List Bool Lia ZifyBool ZifyNat.
From Verif Require Import Base Bytes Tiff Ciff Spec_Bits Spec_Tiff P_Base P_Bits P_Tiff1 P_Tiff2.
Import ListNotations.
Local Open Scope Z_scope.
Ltac Zify.zify_post_hook ::= Z.div_mod_to_equations.

Local Ltac inv_bind H :=
  let a := fresh "a" in let E := fresh "E" in
  apply bind_inv in H; destruct H as [a [E H]].

Definition ends_with (file buf : list Z) : Prop := exists before, file = before ++ buf.
Lemma ends_with_refl : forall f, ends_with f f. Proof. intros f. exists []. reflexivity. Qed.
Lemma ends_with_slice : forall f b a r, ends_with f b -> slice_from b a = Ok r -> ends_with f r.
Proof.
  intros f b a r [p ->] H. apply slice_from_inv in H. destruct H as [_ ->]. exists (p ++ firstn (Z.to_nat a) b).
  rewrite <- app_assoc, firstn_skipn. reflexivity.
Qed.
Lemma ends_with_bytes : forall f b, ends_with f b -> bytes f -> bytes b.
Proof. intros f b [p ->] H. apply Forall_app in H. apply H. Qed.
Lemma ends_with_len : forall f b, ends_with f b -> zlen b <= zlen f.
Proof. intros f b [p ->]. rewrite zlen_app. unfold zlen. lia. Qed.
Lemma piece : forall f b a c d, ends_with f b -> slice b a c = Ok d -> exists before after, f = before ++ d ++ after.
Proof.
  intros f b a c d [p ->] H. apply slice_inv in H. destruct H as (H1 & H2 & ->).
  exists (p ++ firstn (Z.to_nat a) b), (skipn (Z.to_nat (c - a)) (skipn (Z.to_nat a) b)).
  rewrite firstn_skipn, <- app_assoc, firstn_skipn. reflexivity.
Qed.

Lemma ru16_range : forall e b p v, bytes b -> ru16 e b p = Ok v -> 0 <= v < 65536.
Proof.
  intros e b p v Hb H. destruct (endian_read_outside e b p v) as [G _]. specialize (G H).
  destruct (endian_read_value e b p Hb ltac:(lia)) as [K _]. rewrite K in H by lia. apply (f_equal (fun r => match r with Ok x => x | _ => 0 end)) in H. subst v.
  assert (L : length (firstn 2 (skipn (Z.to_nat p) b)) = 2%nat) by (rewrite firstn_length, skipn_length; lia).
  assert (B : bytes (firstn 2 (skipn (Z.to_nat p) b))) by (apply Forall_firstn, Forall_skipn; exact Hb).
  destruct e; [pose proof (big_endian_value_range _ B) as R|pose proof (little_endian_value_range _ B) as R]; rewrite L in R; exact R.
Qed.
Lemma ru32_range : forall e b p v, bytes b -> ru32 e b p = Ok v -> 0 <= v < 4294967296.
Proof.
  intros e b p v Hb H. destruct (endian_read_outside e b p v) as [_ [G _]]. specialize (G H).
  destruct (endian_read_value e b p Hb ltac:(lia)) as [_ K]. rewrite K in H by lia. apply (f_equal (fun r => match r with Ok x => x | _ => 0 end)) in H. subst v.
  assert (L : length (firstn 4 (skipn (Z.to_nat p) b)) = 4%nat) by (rewrite firstn_length, skipn_length; lia).
  assert (B : bytes (firstn 4 (skipn (Z.to_nat p) b))) by (apply Forall_firstn, Forall_skipn; exact Hb).
  destruct e; [pose proof (big_endian_value_range _ B) as R|pose proof (little_endian_value_range _ B) as R]; rewrite L in R; exact R.
Qed.

Lemma datashift_size : forall t, 1 <= t <= 13 -> 2 ^ datashift t = type_size t /\ 0 <= datashift t <= 3.
Proof.
  intros t H. assert (C : Forall (fun t => 2 ^ datashift t = type_size t /\ 0 <= datashift t <= 3) (zrange 1 14))
    by (repeat (constructor; [split; [reflexivity|split; discriminate]|]); constructor).
  rewrite Forall_forall in C. apply C, zrange_In. lia.
Qed.
Lemma type_size_pos : forall t, 1 <= t <= 13 -> 1 <= type_size t <= 8.
Proof.
  intros t H. assert (C : Forall (fun t => 1 <= type_size t <= 8) (zrange 1 14))
    by (repeat (constructor; [split; discriminate|]); constructor).
  rewrite Forall_forall in C. apply C, zrange_In. lia.
Qed.

Section Any.
Context {M : Mode}.

Lemma entry_new_inv : forall file buf o base parent e en, bytes file -> ends_with file buf ->
  entry_new buf o base parent e = Ok en ->
  owns file en /\ e_endian en = e /\ ru16 e buf o = Ok (e_tag en) /\ ru32 e buf (o + 4) = Ok (e_count en) /\ e_parent en = parent.
Proof.
  intros file buf o base parent e en Hf Hs H. unfold entry_new in H.
  inv_bind H. rename a into tag, E into Et. inv_bind H. rename a into typ0, E into Ety. inv_bind H. rename a into count, E into Ec. cbv zeta in H.
  set (typ := if (typ0 =? 0) || (13 <? typ0) then 1 else typ0) in *.
  pose proof (ends_with_bytes _ _ Hs Hf) as Hb.
  assert (Ht : 1 <= typ <= 13) by (pose proof (ru16_range _ _ _ _ Hb Ety); unfold typ; destruct ((typ0 =? 0) || (13 <? typ0)) eqn:Q; lia).
  pose proof (ru32_range _ _ _ _ Hb Ec) as Hc.
  destruct (datashift_size typ Ht) as [D1 D2]. pose proof (type_size_pos typ Ht) as D3. rewrite Z.shiftl_mul_pow2, D1 in H by lia.
  inv_bind H. rename a into doff, E into Ed. inv_bind H. rename a into stop, E into Es. inv_bind H. rename a into data, E into Eda.
  injection H as <-.
  pose proof (slice_inv _ _ _ _ Eda) as (S1 & S2 & S3).
  assert (Hstop : stop = doff + count * type_size typ).
  { unfold uadd, arith_u in Es. destruct ((0 <=? doff + count * type_size typ) && (doff + count * type_size typ <? 2 ^ 64)) eqn:Q; [injection Es as <-; reflexivity|].
    destruct debug; [discriminate|]. injection Es as Es.
    assert (Hd : 0 <= doff < 2 ^ 64 \/ doff = o + 8 /\ count * type_size typ <= 4).
    { destruct (count * type_size typ <=? 4) eqn:L; [injection Ed as <-; right; split; [reflexivity|lia]|left].
      inv_bind Ed. apply arith_u_range in Ed; [exact Ed|lia]. }
    change (2 ^ 64) with 18446744073709551616 in *.
    assert (count * type_size typ < 4294967296 * 8 + 1) by nia. assert (0 <= count * type_size typ) by nia.
    destruct Hd as [Hd|[Hd1 Hd2]].
    - replace ((doff + count * type_size typ) mod 18446744073709551616) with (doff + count * type_size typ - 18446744073709551616) in Es; [nia|].
      rewrite <- (Z_mod_plus_full _ (-1)), Z.mod_small; lia.
    - assert (0 <= o). { destruct (endian_read_outside e buf o tag) as [G _]. specialize (G Et). lia. }
      assert (Hd : 0 <= doff) by lia. set (n := count * type_size typ) in *.
      assert ((doff + n) mod 18446744073709551616 <= doff + n - 18446744073709551616) by lia. lia. }
  split; [|cbn [e_endian e_tag e_count e_parent]; auto].
  split; [|split; [|split]]; cbn [e_typ e_count e_data]; [exact Ht|lia| |].
  - rewrite S3, firstn_length, skipn_length. unfold zlen in *. nia.
  - eapply piece; eassumption.
Qed.

(** What holds of every directory. *)
Definition entry_ok (file : list Z) (p : Z * entry) : Prop := fst p = e_tag (snd p) /\ known_tag (fst p) = true /\ owns file (snd p).
Definition dir_ok (file : list Z) (d : ifd) : Prop :=
  Forall (entry_ok file) (i_entries d) /\ NoDup (map fst (i_entries d)) /\ zlen (i_subs d) <= 4000 * zlen file.
Definition tree_ok (file : list Z) (n : nat) (i : ifd) : Prop :=
  (nesting i <= n)%nat /\ forall d, part_of i d -> dir_ok file d.

Lemma insert_In : forall {A} (m : list (Z * A)) k v p, In p (insert m k v) -> p = (k, v) \/ In p m.
Proof.
  induction m as [|[a b] t IH]; intros k v p H; cbn [insert] in H; [destruct H as [<-|[]]; auto|].
  destruct (a =? k); destruct H as [<-|H]; [auto|right; right; exact H|right; left; reflexivity|].
  destruct (IH _ _ _ H) as [G|G]; [auto|right; right; exact G].
Qed.
Lemma insert_keys : forall {A} (m : list (Z * A)) k v, (map fst (insert m k v) = map fst m /\ In k (map fst m)) \/
  (map fst (insert m k v) = map fst m ++ [k] /\ ~ In k (map fst m)).
Proof.
  induction m as [|[a b] t IH]; intros k v; cbn [insert map fst]; [right; split; [reflexivity|auto]|].
  destruct (a =? k) eqn:E; cbn [map fst].
  - left. split; [f_equal; lia|left; lia].
  - destruct (IH k v) as [[-> H]|[-> H]]; [left; split; [reflexivity|right; exact H]|right; split; [reflexivity|]].
    intros [G|G]; [lia|contradiction].
Qed.
Lemma insert_NoDup : forall {A} (m : list (Z * A)) k v, NoDup (map fst m) -> NoDup (map fst (insert m k v)).
Proof.
  intros A m k v H. destruct (insert_keys m k v) as [[-> _]|[-> G]]; [exact H|].
  apply NoDup_rev in H. rewrite <- (rev_involutive (map fst m ++ [k])). apply NoDup_rev. rewrite rev_app_distr. cbn. constructor; [|exact H].
  rewrite <- in_rev. exact G.
Qed.
Lemma insert_Forall : forall {A} (P : Z * A -> Prop) m k v, Forall P m -> P (k, v) -> Forall P (insert m k v).
Proof.
  intros A P m k v H1 H2. rewrite Forall_forall in *. intros p H. apply insert_In in H. destruct H as [->|H]; auto.
Qed.

Lemma nesting_eq : forall i, nesting i = S (fold_right Nat.max O (map nesting (i_subs i))).
Proof. intros [en subs nx st e]. cbn [nesting i_subs]. f_equal. induction subs as [|s t IH]; cbn; [reflexivity|]. rewrite IH. reflexivity. Qed.
Lemma nesting_le : forall i n, Forall (fun s => (nesting s <= n)%nat) (i_subs i) -> (nesting i <= S n)%nat.
Proof.
  intros i n H. rewrite nesting_eq. apply le_n_S. induction (i_subs i) as [|s t IH]; cbn; [lia|].
  pose proof (Forall_inv H) as H1. cbv beta in H1. specialize (IH (Forall_inv_tail H)). lia.
Qed.
Lemma part_cases : forall i d, part_of i d -> d = i \/ exists s, In s (i_subs i) /\ part_of s d.
Proof.
  intros i d H. apply directories_part in H. rewrite directories_eq in H. destruct H as [->|H]; [auto|right].
  apply in_flat_map in H. destruct H as [s [H1 H2]]. exists s. split; [exact H1|apply directories_part; exact H2].
Qed.
Lemma tree_ok_node : forall file n i, dir_ok file i -> Forall (tree_ok file n) (i_subs i) -> tree_ok file (S n) i.
Proof.
  intros file n i H1 H2. split.
  - apply nesting_le. eapply Forall_impl; [|exact H2]. intros s [H _]. exact H.
  - intros d H. apply part_cases in H. destruct H as [->|[s [G1 G2]]]; [exact H1|].
    rewrite Forall_forall in H2. destruct (H2 s G1) as [_ K]. apply K. exact G2.
Qed.
Lemma tree_ok_mono : forall file n m i, (n <= m)%nat -> tree_ok file n i -> tree_ok file m i.
Proof. intros file n m i H [H1 H2]. split; [lia|exact H2]. Qed.

(** The state of the loop over the entries. *)
Definition st_ok (file : list Z) (n : nat) (st : list (Z * entry) * list ifd) : Prop :=
  Forall (entry_ok file) (fst st) /\ NoDup (map fst (fst st)) /\ Forall (tree_ok file n) (snd st).

Lemma add_sub_inv : forall file n r en st st', st_ok file n st -> entry_ok file (e_tag en, en) ->
  (forall i, r = Ok i -> tree_ok file n i) -> add_sub r en st = Ok st' ->
  st_ok file n st' /\ zlen (snd st') <= zlen (snd st) + 1.
Proof.
  intros file n r en [en0 sb] st' (H1 & H2 & H3) He Hr H. unfold add_sub in H. cbn [fst snd] in *. destruct r as [i|m| |]; try discriminate; injection H as <-.
  - split; [split; [|split]; cbn [fst snd]; [exact H1|exact H2|]|cbn [snd]; rewrite zlen_app; cbn; lia].
    apply Forall_app. split; [exact H3|]. constructor; [apply Hr; reflexivity|constructor].
  - split; [split; [|split]; cbn [fst snd]; [|apply insert_NoDup; exact H2|exact H3]|cbn [snd]; lia].
    apply insert_Forall; [exact H1|exact He].
Qed.

Lemma makernote_inv : forall file (p : parser) b o base e i (Q : ifd -> Prop), ends_with file b ->
  (forall b o ba s e i, ends_with file b -> p b o ba s e = Ok i -> Q i) -> makernote p b o base e = Ok i -> Q i.
Proof.
  intros file p b o base e i Q Hb Hp H. unfold makernote in H.
  inv_bind H. rename a into data, E into Ed. pose proof (ends_with_slice _ _ _ _ Hb Ed) as Hd.
  inv_bind H. inv_bind H. inv_bind H. inv_bind H. cbv zeta in H. inv_bind H. destruct a3.
  { inv_bind H. eapply Hp; [|exact H]. exact Hd. }
  inv_bind H. destruct a3.
  { inv_bind H. inv_bind H. eapply Hp; [|exact H]. eapply ends_with_slice; [exact Hb|eassumption]. }
  inv_bind H. destruct (if a3 then _ else _) as [off' en']. inv_bind H. destruct (if a4 then _ else _) as [off'' en''].
  eapply Hp; [exact Hb|exact H].
Qed.

Lemma rfold_count : forall {S} (f : Z -> S -> res S) (P : Z -> S -> Prop) xs s s' k,
  (forall x s1 s2 k, In x xs -> P k s1 -> f x s1 = Ok s2 -> P (k + 1) s2) ->
  P k s -> rfold f xs s = Ok s' -> P (k + zlen xs) s'.
Proof.
  intros S f P. induction xs as [|x t IH]; intros s s' k Hs H0 H; cbn in H.
  - injection H as <-. rewrite zlen_nil, Z.add_0_r. assumption.
  - inv_bind H. rewrite zlen_cons, Z.add_assoc. eapply IH; [| |exact H].
    + intros; eapply Hs; [right|..]; eassumption.
    + eapply Hs; [left; reflexivity|..]; eassumption.
Qed.
Lemma zlen_zrange : forall a b, zlen (zrange a b) = Z.max 0 (b - a).
Proof. intros. unfold zlen. rewrite zrange_length. lia. Qed.

Definition deeper_ok (file : list Z) (n : nat) (d : option parser) : Prop :=
  forall p, d = Some p -> forall b o ba s e i, ends_with file b -> p b o ba s e = Ok i -> tree_ok file n i.
Lemma ifd_body_inv : forall file n d b o base st e i, bytes file -> ends_with file b -> deeper_ok file n d ->
  ifd_body d b o base st e = Ok i -> tree_ok file (S n) i.
Proof.
  intros file n d b o base st e i Hf Hb Hd H. unfold ifd_body in H. pose proof (ends_with_bytes _ _ Hb Hf) as Hbb.
  inv_bind H. rename a into num, E into En. destruct (4000 <? num) eqn:L; [discriminate|].
  pose proof (ru16_range _ _ _ _ Hbb En) as Hnum.
  assert (Hfl : 2 <= zlen file).
  { pose proof (ends_with_len _ _ Hb). destruct (endian_read_outside e b o num) as [G _]. specialize (G En). unfold zlen in *. lia. }
  inv_bind H. rename E into Er. destruct a as [en sb].
  eapply (rfold_count _ (fun k s => st_ok file n s /\ zlen (snd s) <= k * zlen file)) with (k := 0) in Er.
  - inv_bind H. injection H as <-. destruct Er as [(R1 & R2 & R3) R4]. rewrite zlen_zrange in R4. cbn [fst snd] in *.
    apply tree_ok_node; [|exact R3]. split; [exact R1|split; [exact R2|]]. cbn [i_subs]. nia.
  - clear H Er. intros x s1 s2 k Hx [I1 I2] H. cbv zeta in H. inv_bind H. rename a into tag, E into Et.
    destruct (known_tag tag) eqn:K; cbn [negb] in H; [|injection H as <-; split; [exact I1|nia]].
    inv_bind H. rename a into ent, E into Een. pose proof (entry_new_inv _ _ _ _ _ _ _ Hf Hb Een) as (O1 & O2 & O3 & O4 & O5).
    rewrite Et in O3. injection O3 as O3.
    assert (Eok : entry_ok file (e_tag ent, ent)) by (split; [reflexivity|split; [cbn [fst]; rewrite <- O3; exact K|exact O1]]).
    destruct (is_subifd_tag (e_tag ent)).
    + destruct d as [p|]; [|injection H as <-; split; [exact I1|nia]].
      eapply (rfold_count _ (fun j s => st_ok file n s /\ zlen (snd s) <= zlen (snd s1) + j)) with (k := 0) in H.
      * destruct H as [H1 H2]. split; [exact H1|]. rewrite zlen_zrange in H2.
        assert (e_count ent <= zlen file).
        { destruct O1 as (P1 & P2 & P3 & (x1 & x2 & P4)). pose proof (type_size_pos _ P1).
          apply (f_equal (@length Z)) in P4. rewrite !app_length in P4. unfold zlen. nia. }
        nia.
      * clear H. intros y t1 t2 j _ [J1 J2] H. inv_bind H. destruct (add_sub_inv file n _ _ _ _ J1 Eok (fun i Hi => Hd p eq_refl _ _ _ _ _ _ Hb Hi) H) as [A1 A2].
        split; [exact A1|lia].
      * split; [exact I1|lia].
    + destruct (e_tag ent =? T_Makernote).
      * destruct d as [p|]; [|injection H as <-; split; [exact I1|nia]].
        destruct (add_sub_inv file n _ _ _ _ I1 Eok (fun i Hi => makernote_inv file p b _ _ _ i _ Hb (Hd p eq_refl) Hi) H) as [A1 A2].
        split; [exact A1|nia].
      * destruct s1 as [en1 sb1]. injection H as <-. destruct I1 as (J1 & J2 & J3). cbn [fst snd] in *. split; [|cbn [snd]; nia].
        split; [|split]; cbn [fst snd]; [apply insert_Forall; assumption|apply insert_NoDup; exact J2|exact J3].
  - split; [split; [|split]; cbn; constructor|cbn; lia].
Qed.
Lemma ifd_levels_inv : forall l file b o base st e i, bytes file -> ends_with file b ->
  ifd_levels l b o base st e = Ok i -> tree_ok file (S l) i.
Proof.
  induction l as [|l IH]; intros file b o base st e i Hf Hb H; cbn [ifd_levels] in H.
  - eapply (ifd_body_inv file 0%nat) in H; [exact H|exact Hf|exact Hb|]. intros p Hp. discriminate.
  - eapply (ifd_body_inv file (S l)) in H; [exact H|exact Hf|exact Hb|].
    intros p Hp. injection Hp as <-. intros. eapply IH; eassumption.
Qed.
Lemma ifd_chain_inv : forall n file b o x e s r, bytes file -> ends_with file b -> Forall (tree_ok file 11) s ->
  ifd_chain n b o x e s = Ok r -> Forall (tree_ok file 11) r /\ (length r <= length s + n)%nat.
Proof.
  induction n as [|n IH]; intros file b o x e s r Hf Hb Hs H; cbn [ifd_chain] in H.
  - injection H as <-. split; [exact Hs|lia].
  - inv_bind H. inv_bind H. assert (Hs' : Forall (tree_ok file 11) (s ++ [a0])).
    { apply Forall_app. split; [exact Hs|]. constructor; [|constructor]. eapply (ifd_levels_inv 10); [exact Hf| |exact E0].
      eapply ends_with_slice; eassumption. }
    destruct (i_next a0 =? 0).
    + injection H as <-. split; [exact Hs'|]. rewrite app_length. cbn. lia.
    + eapply IH in H; [|exact Hf|exact Hb|exact Hs']. rewrite app_length in H. cbn in H. destruct H. split; [assumption|lia].
Qed.
Lemma ifd_new_root_inv : forall b o i, bytes b -> ifd_new_root b o = Ok i ->
  tree_ok b 12 i /\ (length (i_subs i) <= 100)%nat /\ i_entries i = [].
Proof.
  intros b o i Hb H. unfold ifd_new_root in H. inv_bind H. inv_bind H. inv_bind H. inv_bind H. injection H as <-.
  apply (ifd_chain_inv 100 b) in E2; [|exact Hb|apply ends_with_refl|constructor]. destruct E2 as [H1 H2]. cbn [length] in H2.
  split; [|split; [exact H2|reflexivity]].
  apply tree_ok_node; [|exact H1]. split; [constructor|split; [constructor|]]. cbn [i_subs].
  assert (1 <= zlen b). { apply bind_inv in E. destruct E as [z [E _]]. apply slice_inv in E. lia. }
  unfold zlen at 1. nia.
Qed.
Lemma owns_fuji : forall b a c t n off d, 1 <= t <= 13 -> 0 <= n -> slice b a c = Ok d -> c - a = n * type_size t ->
  forall k, owns b (mkentry k t n 0 off d BIG_ENDIAN).
Proof.
  intros b a c t n off d Ht Hn H E k. split; [|split; [|split]]; cbn [e_typ e_count e_data]; [exact Ht|exact Hn| |].
  - apply slice_inv in H. destruct H as (H1 & H2 & ->). rewrite firstn_length, skipn_length. unfold zlen in *. lia.
  - eapply piece; [apply ends_with_refl|exact H].
Qed.
Lemma ifd_new_fuji_inv : forall b o i, bytes b -> ifd_new_fuji b o = Ok i -> tree_ok b 1 i.
Proof.
  intros b o i Hb H. unfold ifd_new_fuji in H. inv_bind H. destruct (4000 <? a); [discriminate|]. inv_bind H. destruct a0 as [en off]. injection H as <-.
  eapply rfold_inv with (P := fun s => Forall (entry_ok b) (fst s) /\ NoDup (map fst (fst s))) in E0.
  - destruct E0 as [R1 R2]. apply tree_ok_node; [|constructor]. split; [exact R1|split; [exact R2|]]. cbn [i_subs]. rewrite zlen_nil. pose proof (zlen_nonneg b). lia.
  - clear. intros x [e1 o1] s2 _ [I1 I2] H. cbn [fst] in *. inv_bind H. inv_bind H. inv_bind H. inv_bind H. injection H as <-. cbn [fst].
    destruct (a0 =? T_ImageWidth) eqn:Q.
    + inv_bind E1. injection E1 as <-. split; [|apply insert_NoDup; exact I2]. apply insert_Forall; [exact I1|].
      split; [reflexivity|split; [reflexivity|]]. cbn [snd]. eapply owns_fuji; [lia|lia|eassumption|cbn; lia].
    + destruct (a0 =? T_RafOldWB).
      * inv_bind E1. injection E1 as <-. split; [|apply insert_NoDup; exact I2]. apply insert_Forall; [exact I1|].
        split; [reflexivity|split; [reflexivity|]]. cbn [snd]. eapply owns_fuji; [lia|lia|eassumption|cbn; lia].
      * injection E1 as <-. auto.
  - split; constructor.
Qed.
Lemma ifd_new_file_inv : forall b i, bytes b -> ifd_new_file b = Ok i -> tree_ok b 13 i.
Proof.
  intros b i Hb H. unfold ifd_new_file in H. inv_bind H. destruct a.
  2: { apply ifd_new_root_inv in H; [|exact Hb]. destruct H as [H _]. eapply tree_ok_mono; [|exact H]. lia. }
  assert (Hlen : 8 <= zlen b). { unfold at_is in E. apply bind_inv in E. destruct E as [z [E _]]. apply slice_inv in E. cbn in E. lia. }
  inv_bind H. inv_bind H. inv_bind H. inv_bind H. inv_bind H. destruct a3 as [en sb]. inv_bind H. inv_bind H. injection H as <-.
  apply ifd_new_root_inv in E2; [|exact Hb]. destruct E2 as [R1 _].
  assert (G : Forall (entry_ok b) en /\ NoDup (map fst en) /\ Forall (tree_ok b 12) sb /\ zlen sb <= 2).
  { destruct (ifd_new_root b a2) as [i2|m| |] eqn:Ei; try discriminate.
    - injection E4 as <- <-. apply ifd_new_root_inv in Ei; [|exact Hb]. destruct Ei as [Ei _].
      split; [constructor|split; [constructor|split; [|cbn; lia]]]. constructor; [exact R1|constructor; [exact Ei|constructor]].
    - inv_bind E4. injection E4 as <- <-. split; [|split; [|split; [|cbn; lia]]].
      + constructor; [|constructor]. split; [reflexivity|split; [reflexivity|]]. cbn [snd]. eapply owns_fuji; [lia|lia|eassumption|reflexivity].
      + cbn. constructor; [intros []|constructor].
      + constructor; [exact R1|constructor]. }
  destruct G as (G1 & G2 & G3 & G4).
  assert (K : Forall (tree_ok b 12) a4 /\ zlen a4 <= 3).
  { destruct (ifd_new_fuji b a3) as [i3|m| |] eqn:Ei; try discriminate; injection E6 as <-.
    - apply ifd_new_fuji_inv in Ei; [|exact Hb]. split; [|rewrite zlen_app; cbn; lia]. apply Forall_app. split; [exact G3|].
      constructor; [|constructor]. eapply tree_ok_mono; [|exact Ei]. lia.
    - split; [exact G3|lia]. }
  destruct K as [K1 K2]. apply tree_ok_node; [|exact K1]. split; [exact G1|split; [exact G2|]]. cbn [i_subs]. lia.
Qed.

(** Not more entries than known tags. *)
Lemma known_In : forall t, known_tag t = true <-> In t known_tags.
Proof.
  intros t. unfold known_tag. rewrite existsb_exists. split; [intros [x [H1 H2]]; replace t with x by lia; exact H1|intros H; exists t; split; [exact H|lia]].
Qed.
Lemma dir_entries : forall file d, dir_ok file d -> (length (i_entries d) <= 85)%nat.
Proof.
  intros file d (H1 & H2 & _). rewrite <- (map_length fst). change 85%nat with (length known_tags). apply NoDup_incl_length; [exact H2|].
  intros k Hk. apply in_map_iff in Hk. destruct Hk as [[k' e] [<- Hk]]. rewrite Forall_forall in H1. destruct (H1 _ Hk) as (_ & K & _). apply known_In. exact K.
Qed.

Lemma too_many : forall l b o base st e n, ru16 e b o = Ok n -> 4000 < n ->
  ifd_levels l b o base st e = Err "too many entries in IFD"%string.
Proof.
  intros l b o base st e n H Hn. destruct l; cbn [ifd_levels]; unfold ifd_body; rewrite H; cbn [bind]; replace (4000 <? n) with true by lia; reflexivity.
Qed.

(** ** Reading the values *)
Lemma integer_size : forall t, integer_type t = true -> 1 <= t <= 13 /\ In (type_size t) [1; 2; 4].
Proof.
  intros t H. unfold integer_type in H. destruct (t =? 1) eqn:E1; [replace t with 1 by lia; cbn; split; [lia|auto]|].
  destruct (t =? 3) eqn:E2; [replace t with 3 by lia; cbn; split; [lia|auto]|].
  destruct (t =? 4) eqn:E3; [replace t with 4 by lia; cbn; split; [lia|auto]|].
  destruct (t =? 8) eqn:E4; [replace t with 8 by lia; cbn; split; [lia|auto]|].
  destruct (t =? 9) eqn:E5; [replace t with 9 by lia; cbn; split; [lia|auto]|].
  replace t with 13 by lia; cbn; split; [lia|auto].
Qed.
Lemma ru16_reads : forall e b p, 0 <= p -> p + 2 <= zlen b -> exists v, ru16 e b p = Ok v.
Proof. intros e b p H1 H2. destruct e; cbn [ru16]; unfold BEu16, LEu16; rewrite slice_ok by lia; eexists; reflexivity. Qed.
Lemma ru32_reads : forall e b p, 0 <= p -> p + 4 <= zlen b -> exists v, ru32 e b p = Ok v.
Proof. intros e b p H1 H2. destruct e; cbn [ru32]; unfold BEu32, LEu32; rewrite slice_ok by lia; eexists; reflexivity. Qed.
Lemma get_u32_reads : forall file en idx, owns file en -> integer_type (e_typ en) = true -> 0 <= idx < e_count en ->
  exists v, get_u32 en idx = Ok v.
Proof.
  intros file en idx (O1 & O2 & O3 & _) Ht Hi. unfold integer_type in Ht. unfold get_u32, get_force_u32. fold (zlen (e_data en)) in O3.
  destruct (e_typ en =? 1) eqn:E1.
  { replace (e_typ en) with 1 in O3 by lia. cbn in O3. rewrite get_ok by lia. eexists; reflexivity. }
  destruct ((e_typ en =? 3) || (e_typ en =? 8)) eqn:E2.
  { replace (type_size (e_typ en)) with 2 in O3 by (destruct (e_typ en =? 3) eqn:E; [replace (e_typ en) with 3 by lia|replace (e_typ en) with 8 by lia]; reflexivity).
    apply ru16_reads; lia. }
  destruct ((e_typ en =? 4) || (e_typ en =? 7) || (e_typ en =? 9) || (e_typ en =? 13)) eqn:E3; [|lia].
  replace (type_size (e_typ en)) with 4 in O3 by (destruct (e_typ en =? 4) eqn:E; [replace (e_typ en) with 4 by lia; reflexivity|];
    destruct (e_typ en =? 9) eqn:E'; [replace (e_typ en) with 9 by lia; reflexivity|]; replace (e_typ en) with 13 by lia; reflexivity).
  apply ru32_reads; lia.
Qed.
End Any.
