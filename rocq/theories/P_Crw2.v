(** Proofs about Canon CRW: blocks of differences. *)
From Coq Require Import String ZArith List Bool Lia ZifyBool ZifyNat.
From Verif Require Import Base Bytes Pumps Dec_Crw Spec_Bits Spec_Stream Spec_Huffman Spec_Ljpeg Spec_Crw
  P_Base P_Bits P_Pumps P_Huff1 P_Huff2 P_Huff3 P_Huff5 P_Huff6 P_Ljpeg1 P_Pred2 P_Pred5 P_Crw1.
Import ListNotations.
Local Open Scope Z_scope.
Ltac Zify.zify_post_hook ::= Z.div_mod_to_equations.

(** ** The shipped codes *)
Definition has_all (h : hcode) (l : list Z) : bool := forallb (fun s => existsb (Z.eqb s) (hc_syms h)) l.
Definition pairs : list Z := 0 :: 240 :: flat_map (fun r => map (fun c => 16 * r + c) (zrange 1 11)) (zrange 0 16).
Lemma has_all_In : forall h l s, has_all h l = true -> In s l -> In s (hc_syms h).
Proof.
  intros h l s H I. unfold has_all in H. rewrite forallb_forall in H. specialize (H s I). apply existsb_exists in H. destruct H as [x [X E]].
  replace s with x by lia. exact X.
Qed.
Lemma in_pairs : forall r c, 0 <= r < 16 -> 1 <= c <= 10 -> In (16 * r + c) pairs.
Proof.
  intros r c Hr Hc. right. right. apply in_flat_map. exists r. split; [apply zrange_In; lia|]. apply in_map_iff. exists c. split; [reflexivity|apply zrange_In; lia].
Qed.
Definition usable (h : hcode) : Prop := code_table (hc_counts h) /\ length (hc_syms h) = length (lengths (hc_counts h)).
Lemma canon_usable : forall n, 0 <= n <= 2 -> usable (canon_first n) /\ usable (canon_second n) /\
  has_all (canon_first n) (zrange 0 12) = true /\ has_all (canon_second n) pairs = true.
Proof.
  intros n Hn. assert (n = 0 \/ n = 1 \/ n = 2) as [-> |[-> | ->]] by lia;
  (split; [|split; [|split; vm_compute; reflexivity]]);
  (split; [|vm_compute; reflexivity]; split; [reflexivity|]; split; [apply Forall_forall; intros x Hx; cbn in Hx; lia|]; split; [apply Nat.leb_le; vm_compute; reflexivity|vm_compute; discriminate]).
Qed.

(** ** Reading *)
Section Read.
Context {M : Mode}.
(** [t] reads the symbols of [h]. *)
Definition reads (t : crwtable) (h : hcode) : Prop :=
  forall s p tail, Repr JPEG p (symbol_word h s ++ tail) -> In s (hc_syms h) -> (16 <= length tail)%nat ->
    exists p', crw_leaf t p = Ok (s, p') /\ Repr JPEG p' tail.
Lemma crw_reads : forall h more, usable h -> exists t, crw_table (hc_counts h ++ hc_syms h ++ more) = Ok t /\ reads t h.
Proof.
  intros h more [Hc Hs]. destruct (crw_table_built (hc_counts h) (hc_syms h) more Hc Hs) as [t [E _]]. exists t. split; [exact E|].
  intros s p tail R Hi Ht. destruct (position_nth s _ Hi) as [P1 P2].
  destruct (crw_leaf_read (hc_counts h) (hc_syms h) more Hc Hs t (position s (hc_syms h)) p tail E ltac:(lia) Ht R) as [p' [E' R']].
  rewrite P2 in E'. exists p'. split; assumption.
Qed.
Lemma crw_tables_read : forall n, 0 <= n <= 2 -> exists ts, crw_tables n = Ok ts /\ reads (fst ts) (canon_first n) /\ reads (snd ts) (canon_second n).
Proof.
  intros n Hn. destruct (canon_usable n Hn) as [U1 [U2 _]].
  assert (E : exists more, (if n =? 0 then (crw_first_0, crw_second_0) else if n =? 1 then (crw_first_1, crw_second_1) else (crw_first_2, crw_second_2)) =
    (hc_counts (canon_first n) ++ hc_syms (canon_first n) ++ [], hc_counts (canon_second n) ++ hc_syms (canon_second n) ++ more)).
  { exists [255; 255]. assert (n = 0 \/ n = 1 \/ n = 2) as [-> |[-> | ->]] by lia; reflexivity. }
  destruct E as [more E]. unfold crw_tables. rewrite E.
  destruct (crw_reads (canon_first n) [] U1) as [a [Ea Ra]]. destruct (crw_reads (canon_second n) more U2) as [b [Eb Rb]].
  rewrite Ea. cbn [bind]. rewrite Eb. cbn [bind]. exists (a, b). split; [reflexivity|]. split; assumption.
Qed.

Lemma category_pos : forall d, d <> 0 -> (1 <= category d)%nat.
Proof. intros d H. unfold category. replace (d =? 0) with false by lia. pose proof (Z.log2_nonneg (Z.abs d)). lia. Qed.
Lemma crw_diff_read : forall d p tail, d <> 0 -> (category d <= 15)%nat -> Repr JPEG p (extra_of d ++ tail) ->
  exists p', crw_diff (Z.of_nat (category d)) p = Ok (d, p') /\ Repr JPEG p' tail.
Proof.
  intros d p tail Hd Hc R. unfold extra_of in R. replace (category d =? 16)%nat with false in R by lia.
  destruct (extra_read JPEG d p tail ltac:(discriminate) ltac:(lia) R) as [p' [E R']]. unfold crw_diff. rewrite E. cbn [bind].
  exists p'. split; [|exact R']. f_equal. f_equal. destruct (difference_extra d) as [X1 X2]. pose proof (category_pos d Hd) as Hp.
  rewrite top_bit by lia. unfold difference in X2. replace (category d =? 0)%nat with false in X2 by lia.
  destruct (2 ^ (Z.of_nat (category d) - 1) <=? extra d); cbn [negb]; exact X2.
Qed.

Section Blocks.
Variables (ts : crwtable * crwtable) (first second : hcode).
Hypothesis H1 : reads (fst ts) first.
Hypothesis H2 : reads (snd ts) second.
Hypothesis A1 : has_all first (zrange 0 12) = true.
Hypothesis A2 : has_all second pairs = true.

(** Sixteen zeros at a time. *)
Lemma zeros_skip : forall m i fuel buf p tail, Repr JPEG p (concat (repeat (symbol_word second 240) m) ++ tail) ->
  (16 <= length tail)%nat -> 0 < i -> i + 16 * Z.of_nat m < 64 -> (Z.to_nat (64 - i) < fuel)%nat ->
  exists p' fuel', crw_block fuel ts i buf p = crw_block fuel' ts (i + 16 * Z.of_nat m) buf p' /\ Repr JPEG p' tail /\ (Z.to_nat (64 - (i + 16 * Z.of_nat m)) < fuel')%nat.
Proof.
  induction m as [|m IH]; intros i fuel buf p tail R Ht Hi Hm Hf.
  - exists p, fuel. rewrite Z.add_0_r. split; [reflexivity|]. split; [exact R|lia].
  - cbn [repeat concat] in R. rewrite <- app_assoc in R.
    destruct fuel as [|fuel]; [lia|]. cbn [crw_block]. replace (i <? 64) with true by lia. replace (0 <? i) with true by lia.
    destruct (H2 240 p _ R ltac:(eapply has_all_In; [exact A2|right; left; reflexivity]) ltac:(rewrite app_length; lia)) as [p1 [E1 R1]].
    rewrite E1. cbn [bind]. change (240 =? 0) with false. change (240 =? 255) with false. change (Z.shiftr 240 4) with 15. change (Z.land 240 15) with 0. cbn [andb Z.eqb]. cbv zeta.
    destruct (IH (i + 15 + 1) fuel buf p1 tail R1 Ht ltac:(lia) ltac:(lia) ltac:(lia)) as [p2 [f2 [E2 [R2 F2]]]].
    exists p2, f2. replace (i + 16 * Z.of_nat (S m)) with (i + 15 + 1 + 16 * Z.of_nat m) by lia. split; [exact E2|]. split; [exact R2|exact F2].
Qed.

Lemma runs_read : forall ds run i fuel buf p tail, (16 <= length tail)%nat -> 0 < i -> i + Z.of_nat run + zlen ds = 64 -> zlen buf = 64 ->
  (forall j, i <= j < 64 -> znth buf j = 0) -> (forall d, In d ds -> Z.abs d < 1024) -> (Z.to_nat (64 - i) < fuel)%nat ->
  Repr JPEG p (runs_coded second run ds ++ tail) ->
  exists buf' p', crw_block fuel ts i buf p = Ok (buf', p') /\ Repr JPEG p' tail /\ zlen buf' = 64 /\
    (forall j, 0 <= j < i + Z.of_nat run -> znth buf' j = znth buf j) /\ (forall j, 0 <= j < zlen ds -> znth buf' (i + Z.of_nat run + j) = znth ds j).
Proof.
  induction ds as [|d ds IH]; intros run i fuel buf p tail Ht Hi Hl Lb Z0 Hd Hf R; cbn [runs_coded] in R.
  - rewrite zlen_nil in *. destruct (run =? 0)%nat eqn:Er.
    + destruct fuel as [|fuel]; [lia|]. cbn [crw_block]. replace (i <? 64) with false by lia.
      exists buf, p. split; [reflexivity|]. split; [exact R|]. split; [exact Lb|]. split; [reflexivity|]. intros j Hj; cbn in Hj; lia.
    + destruct fuel as [|fuel]; [lia|]. cbn [crw_block]. replace (i <? 64) with true by lia. replace (0 <? i) with true by lia.
      destruct (H2 0 p _ R ltac:(eapply has_all_In; [exact A2|left; reflexivity]) Ht) as [p1 [E1 R1]]. rewrite E1. cbn [bind]. change (0 =? 0) with true.
      replace (i =? 0) with false by lia. cbn [andb negb].
      exists buf, p1. split; [reflexivity|]. split; [exact R1|]. split; [exact Lb|]. split; [reflexivity|]. intros j Hj; cbn in Hj; lia.
  - rewrite zlen_cons in Hl. destruct (d =? 0) eqn:Ed.
    + destruct (IH (S run) i fuel buf p tail Ht Hi ltac:(lia) Lb Z0 ltac:(intros x Hx; apply Hd; right; exact Hx) Hf R) as [buf' [p' [E [R' [L' [V1 V2]]]]]].
      exists buf', p'. split; [exact E|]. split; [exact R'|]. split; [exact L'|]. split.
      * intros j Hj. apply V1. lia.
      * intros j Hj. rewrite zlen_cons in Hj. pose proof (zlen_nonneg ds). destruct (j =? 0) eqn:Ej.
        -- replace j with 0 by lia. rewrite znth_cons_0, Z.add_0_r. rewrite V1 by lia. rewrite Z0 by lia. lia.
        -- rewrite znth_cons_S by lia. rewrite <- V2 by lia. f_equal. lia.
    + pose proof (zlen_nonneg ds) as Ln. rewrite <- app_assoc in R.
      set (m := (run / 16)%nat) in *. set (r := (run mod 16)%nat) in *.
      assert (Hrun : run = (16 * m + r)%nat) by (unfold m, r; apply Nat.div_mod; lia).
      assert (Hr16 : (r < 16)%nat) by (unfold r; apply Nat.mod_upper_bound; lia).
      clearbody m r.
      assert (Hcat : (1 <= category d <= 10)%nat).
      { split; [apply category_pos; lia|]. apply le_category. change (2 ^ Z.of_nat 10) with 1024. apply Hd. left. reflexivity. }
      destruct (zeros_skip m i fuel buf p _ R ltac:(rewrite !app_length; lia) Hi ltac:(lia) Hf) as [p1 [f1 [E1 [R1 F1]]]].
      rewrite E1. rewrite <- !app_assoc in R1. destruct f1 as [|f1]; [lia|]. cbn [crw_block].
      replace (i + 16 * Z.of_nat m <? 64) with true by lia. replace (0 <? i + 16 * Z.of_nat m) with true by lia.
      set (c := Z.of_nat (category d)) in *.
      destruct (H2 (16 * Z.of_nat r + c) p1 _ R1 ltac:(eapply has_all_In; [exact A2|apply in_pairs; lia]) ltac:(rewrite !app_length; lia)) as [p2 [E2 R2]].
      rewrite E2. cbn [bind]. replace (16 * Z.of_nat r + c =? 0) with false by lia. replace (16 * Z.of_nat r + c =? 255) with false by lia. cbn [andb]. cbv zeta.
      assert (S1 : Z.shiftr (16 * Z.of_nat r + c) 4 = Z.of_nat r) by (rewrite Z.shiftr_div_pow2 by lia; change (2 ^ 4) with 16; lia).
      assert (S2 : Z.land (16 * Z.of_nat r + c) 15 = c) by (change 15 with (Z.ones 4); rewrite Z.land_ones by lia; change (2 ^ 4) with 16; lia).
      rewrite S1, S2. replace (c =? 0) with false by lia.
      destruct (crw_diff_read d p2 _ ltac:(lia) ltac:(lia) R2) as [p3 [E3 R3]]. fold c in E3. rewrite E3. cbn [bind].
      set (q := i + 16 * Z.of_nat m + Z.of_nat r). assert (Hq : q = i + Z.of_nat run) by lia.
      replace (q <? 64) with true by lia. rewrite upd_ok by lia. cbn [bind].
      destruct (IH 0%nat (q + 1) f1 (upd_nat buf (Z.to_nat q) d) p3 tail Ht ltac:(lia) ltac:(lia)) as [buf' [p' [E [R' [L' [V1 V2]]]]]].
      * rewrite zlen_upd_nat. exact Lb.
      * intros j Hj. rewrite znth_upd_nat by lia. replace (j =? q) with false by lia. apply Z0. lia.
      * intros x Hx. apply Hd. right. exact Hx.
      * lia.
      * exact R3.
      * exists buf', p'. split; [exact E|]. split; [exact R'|]. split; [exact L'|]. rewrite <- Hq. split.
        -- intros j Hj. rewrite V1 by lia. rewrite znth_upd_nat by lia. replace (j =? q) with false by lia. reflexivity.
        -- intros j Hj. rewrite zlen_cons in Hj. destruct (j =? 0) eqn:Ej.
           ++ replace j with 0 by lia. rewrite znth_cons_0, Z.add_0_r. rewrite V1 by lia. rewrite znth_upd_nat by lia. rewrite Z.eqb_refl. reflexivity.
           ++ rewrite znth_cons_S by lia. rewrite <- V2 by lia. f_equal. lia.
Qed.

Lemma block_read : forall f d ds p tail, f = 64%nat -> (16 <= length tail)%nat -> zlen ds = 63 -> Z.abs d < 2048 -> (forall d, In d ds -> Z.abs d < 1024) ->
  Repr JPEG p (block_coded first second d ds ++ tail) ->
  exists p', crw_block (S f) ts 0 (zeros 64) p = Ok (d :: ds, p') /\ Repr JPEG p' tail.
Proof.
  intros f d ds p tail Ef Ht Hl Hd Hds R. unfold block_coded in R. rewrite <- !app_assoc in R.
  assert (Hcat : (category d <= 11)%nat).
  { destruct (Z.eq_dec d 0) as [-> |]; [cbn; lia|]. apply le_category. change (2 ^ Z.of_nat 11) with 2048. exact Hd. }
  cbn [crw_block]. change (0 <? 64) with true. change (0 <? 0) with false. cbv iota.
  destruct (H1 (Z.of_nat (category d)) p _ R ltac:(eapply has_all_In; [exact A1|apply zrange_In; lia]) ltac:(rewrite !app_length; lia)) as [p1 [E1 R1]].
  rewrite E1. cbn [bind]. change (negb (0 =? 0)) with false. rewrite andb_false_r. replace (Z.of_nat (category d) =? 255) with false by lia. cbv zeta.
  replace (0 + Z.shiftr (Z.of_nat (category d)) 4) with 0 by (rewrite Z.shiftr_div_pow2 by lia; change (2 ^ 4) with 16; lia).
  replace (Z.land (Z.of_nat (category d)) 15) with (Z.of_nat (category d)) by (change 15 with (Z.ones 4); rewrite Z.land_ones by lia; change (2 ^ 4) with 16; lia).
  assert (G : forall buf p2, zlen buf = 64 -> znth buf 0 = d -> (forall j, 1 <= j < 64 -> znth buf j = 0) -> Repr JPEG p2 (runs_coded second 0 ds ++ tail) ->
    exists p', crw_block f ts (0 + 1) buf p2 = Ok (d :: ds, p') /\ Repr JPEG p' tail).
  { intros buf p2 Lb V0 VZ R2.
    destruct (runs_read ds 0 1 f buf p2 tail Ht ltac:(lia) ltac:(lia) Lb VZ Hds ltac:(lia) R2) as [buf' [p' [E [R' [L' [V1 V2]]]]]].
    exists p'. split; [|exact R']. change (0 + 1) with 1. rewrite E. f_equal. f_equal. apply list_eq_znth.
    - rewrite zlen_cons. lia.
    - intros j Hj. destruct (j =? 0) eqn:Ej.
      + replace j with 0 by lia. rewrite znth_cons_0. rewrite V1 by lia. exact V0.
      + rewrite znth_cons_S by lia. rewrite <- V2 by lia. f_equal. lia. }
  destruct (Z.eq_dec d 0) as [-> |Hnz].
  - change (Z.of_nat (category 0) =? 0) with true. cbv iota. change (extra_of 0 ++ runs_coded second 0 ds ++ tail) with (runs_coded second 0 ds ++ tail) in R1.
    apply G; [reflexivity|reflexivity|intros; apply znth_zeros|exact R1].
  - pose proof (category_pos d Hnz). replace (Z.of_nat (category d) =? 0) with false by lia.
    destruct (crw_diff_read d p1 _ Hnz ltac:(lia) R1) as [p2 [E2 R2]]. rewrite E2. cbn [bind]. change (0 <? 64) with true. cbv iota.
    rewrite upd_ok by (rewrite ?zlen_zeros; lia). cbn [bind]. apply G.
    + reflexivity.
    + rewrite znth_upd_nat by (rewrite ?zlen_zeros; lia). reflexivity.
    + intros j Hj. rewrite znth_upd_nat by (rewrite ?zlen_zeros; lia). replace (j =? 0) with false by lia. apply znth_zeros.
    + exact R2.
Qed.
End Blocks.
End Read.
