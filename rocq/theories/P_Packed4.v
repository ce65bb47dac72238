(** Packed layouts: row oriented round trips, shape of every result. *)
From Coq Require Import ZArith List Bool Lia ZifyBool ZifyNat Arith.
From Verif Require Import Base Bytes Threads Lookup Packed Spec_Bits Spec_Image Spec_Packed
  P_Base P_Bits P_Threads P_Pumps P_Packed P_Packed2 P_Packed3.
Import ListNotations.
Local Open Scope Z_scope.
Ltac Zify.zify_post_hook ::= Z.div_mod_to_equations.

Lemma skipn_concat : forall s (ls : list (list Z)) r, Forall (fun l => zlen l = s) ls -> 0 <= s -> (r < length ls)%nat ->
  skipn (Z.to_nat (Z.of_nat r * s)) (concat ls) = nth r ls [] ++ concat (skipn (S r) ls).
Proof.
  intros s ls r F Hs. revert r. induction F as [|l ls Hl F IH]; intros r Hr; [cbn in Hr; lia|].
  destruct r as [|r].
  - cbn [concat nth skipn]. change (Z.of_nat 0 * s) with 0. reflexivity.
  - cbn [concat nth]. replace (Z.to_nat (Z.of_nat (S r) * s)) with (length l + Z.to_nat (Z.of_nat r * s))%nat
      by (unfold zlen in Hl; nia).
    rewrite <- skipn_skipn'. rewrite skipn_app_exact by reflexivity. rewrite IH by (cbn in Hr; lia). reflexivity.
Qed.
Lemma padded_zlen : forall s c l, zlen l <= s -> zlen (padded s c l) = s.
Proof. intros. unfold padded. rewrite zlen_app, zlen_repeat. unfold zlen in *. lia. Qed.
Lemma padded_bytes : forall s c l, byte c -> bytes l -> bytes (padded s c l).
Proof.
  intros. unfold padded. apply Forall_app. split; [assumption|]. apply Forall_forall. intros x Hx.
  apply repeat_spec in Hx. subst. assumption.
Qed.
Lemma Forall_concat' : forall {A} (P : A -> Prop) ls, Forall (Forall P) ls -> Forall P (concat ls).
Proof. intros A P ls H. induction H; cbn [concat]; [constructor|]. apply Forall_app; auto. Qed.
Lemma pack_rows_zlen : forall s c enc rows, Forall (fun row => zlen (enc row) <= s) rows ->
  zlen (pack_rows s c enc rows) = Z.of_nat (length rows) * s.
Proof.
  intros s c enc rows H. unfold pack_rows. rewrite (concat_length_const _ s).
  - rewrite zlen_map. unfold zlen. lia.
  - rewrite Forall_map. eapply Forall_impl; [|exact H]. cbn. intros. apply padded_zlen. assumption.
Qed.
Lemma pack_rows_skip : forall s c enc rows r, Forall (fun row => zlen (enc row) <= s) rows -> 0 <= s -> (r < length rows)%nat ->
  exists rest, skipn (Z.to_nat (Z.of_nat r * s)) (pack_rows s c enc rows) = enc (nth r rows []) ++ rest.
Proof.
  intros s c enc rows r H Hs Hr. unfold pack_rows.
  rewrite skipn_concat.
  - rewrite (nth_indep _ [] (padded s c (enc []))) by (rewrite map_length; assumption).
    rewrite (map_nth (fun row => padded s c (enc row))). unfold padded at 1. rewrite <- app_assoc. eexists. reflexivity.
  - rewrite Forall_map. eapply Forall_impl; [|exact H]. cbn. intros. apply padded_zlen. assumption.
  - assumption.
  - rewrite map_length. assumption.
Qed.
Lemma pack_rows_bytes : forall s c enc rows, byte c -> (forall row, bytes (enc row)) -> bytes (pack_rows s c enc rows).
Proof.
  intros s c enc rows Hc He. unfold pack_rows. apply Forall_concat'. rewrite Forall_map. apply Forall_forall.
  intros row _. apply padded_bytes; auto.
Qed.

Lemma rows_determined : forall img' w rows pix, 0 < w -> Forall (fun row => zlen row = w) rows ->
  is_image img' w (Z.of_nat (length rows)) pix ->
  (forall r c, 0 <= r < Z.of_nat (length rows) -> 0 <= c < w -> pix r c = znth (nth (Z.to_nat r) rows []) c) ->
  img' = concat rows.
Proof.
  intros img' w rows pix Hw F I Hp. eapply image_determined; [exact Hw| |exact I| |].
  - lia.
  - rewrite (concat_length_const _ w) by assumption. unfold zlen. lia.
  - intros r c Hr Hc. rewrite Hp by assumption. symmetry. apply znth_concat; assumption.
Qed.
Lemma row_even : forall (row : list Z) w, zlen row = w -> w mod 2 = 0 -> exists m, (12 * length row = 8 * m)%nat.
Proof. intros row w Hl He. exists (3 * (length row / 2))%nat. unfold zlen in Hl. lia. Qed.

Theorem round_trip_12le_16bitaligned : forall rows w c, 0 < w -> w mod 2 = 0 -> byte c ->
  Forall (fun row => zlen row = w) rows -> Forall (Forall (fits 12)) rows ->
  decode_12le_16bitaligned (pack_rows (2 * ((w * 12 / 8 + 1) / 2)) c (pack 12) rows) w (Z.of_nat (length rows)) = Ok (concat rows).
Proof.
  intros rows w c Hw He Hc F Ff. set (s := 2 * ((w * 12 / 8 + 1) / 2)).
  assert (Hs : 0 <= s) by (unfold s; lia).
  assert (Fs : Forall (fun row => zlen (pack 12 row) <= s) rows).
  { eapply Forall_impl; [|exact F]. cbn beta. intros row Hr. destruct (row_even row w Hr He) as [m Hm].
    unfold zlen in *. rewrite (pack_length 12 row m Hm). unfold s. lia. }
  destruct (decode_12le_16bitaligned_image (pack_rows s c (pack 12) rows) w (Z.of_nat (length rows))) as [img [E I]];
    try assumption; try lia.
  - apply pack_rows_bytes; [assumption|apply pack_bytes].
  - rewrite pack_rows_zlen by assumption. unfold s. lia.
  - rewrite E. f_equal. eapply rows_determined; [exact Hw|exact F|exact I|]. intros r k Hr Hk. cbv beta.
    fold s.
    destruct (pack_rows_skip s c (pack 12) rows (Z.to_nat r) Fs Hs ltac:(lia)) as [rest Er].
    rewrite Z2Nat.id in Er by lia. rewrite Er.
    assert (Hrow : zlen (nth (Z.to_nat r) rows []) = w).
    { rewrite Forall_forall in F. apply F. apply nth_In. lia. }
    apply packed_sample_pack.
    + rewrite Forall_forall in Ff. apply Ff. apply nth_In. lia.
    + eapply row_even; eassumption.
    + lia.
Qed.

Lemma with_control_fuel : forall c f1 f2 l, (length l <= f1)%nat -> (length l <= f2)%nat ->
  with_control_aux f1 c l = with_control_aux f2 c l.
Proof.
  induction f1; intros f2 l H1 H2.
  - destruct l; [|cbn in H1; lia]. destruct f2; reflexivity.
  - destruct f2; [destruct l; [reflexivity|cbn in H2; lia]|].
    cbn [with_control_aux]. destruct l as [|x l]; [reflexivity|].
    destruct (Nat.ltb (length (x :: l)) 15); [reflexivity|]. do 2 f_equal.
    apply IHf1; rewrite skipn_length; cbn [length] in *; lia.
Qed.
Lemma with_control_short : forall c l, (length l < 15)%nat -> with_control c l = l.
Proof.
  intros c l H. destruct l as [|x l]; [reflexivity|]. unfold with_control. cbn [length with_control_aux].
  replace (Nat.ltb _ 15) with true; [reflexivity|]. symmetry. apply Nat.ltb_lt. exact H.
Qed.
Lemma with_control_long : forall c l, (15 <= length l)%nat ->
  with_control c l = firstn 15 l ++ [c] ++ with_control c (skipn 15 l).
Proof.
  intros c l H. destruct l as [|x l]; [cbn in H; lia|]. unfold with_control at 1. cbn [length with_control_aux].
  replace (Nat.ltb _ 15) with false by (symmetry; apply Nat.ltb_ge; exact H). do 2 f_equal.
  unfold with_control. apply with_control_fuel; rewrite ?skipn_length; cbn [length]; lia.
Qed.
Lemma with_control_length : forall c n l, length l = n -> length (with_control c l) = (n + n / 15)%nat.
Proof.
  intros c n. induction n as [n IH] using lt_wf_ind. intros l Hl.
  destruct (Nat.lt_ge_cases n 15).
  - rewrite with_control_short by lia. lia.
  - rewrite with_control_long by lia. rewrite !app_length, firstn_length_le by lia. cbn [length].
    rewrite (IH (n - 15)%nat) by (try lia; rewrite skipn_length; lia). lia.
Qed.
Lemma with_control_bytes : forall c n l, byte c -> length l = n -> bytes l -> bytes (with_control c l).
Proof.
  intros c n. induction n as [n IH] using lt_wf_ind. intros l Hc Hl Hb.
  destruct (Nat.lt_ge_cases n 15).
  - rewrite with_control_short by lia. assumption.
  - rewrite with_control_long by lia. apply Forall_app. split; [apply Forall_firstn; assumption|].
    apply Forall_app. split; [constructor; [assumption|constructor]|].
    apply (IH (n - 15)%nat); try assumption; [lia|rewrite skipn_length; lia|apply Forall_skipn; assumption].
Qed.
Lemma without_with_control : forall c n l rest, length l = n ->
  exists rest', without_control (with_control c l ++ rest) = l ++ rest'.
Proof.
  intros c n. induction n as [n IH] using lt_wf_ind. intros l rest Hl.
  destruct (Nat.lt_ge_cases n 15).
  - rewrite with_control_short by lia. rewrite without_control_step, firstn_app.
    rewrite (firstn_all2 l) by lia. rewrite <- app_assoc. eexists. reflexivity.
  - rewrite with_control_long by lia. rewrite <- !app_assoc. rewrite without_control_step.
    assert (L : length (firstn 15 l) = 15%nat) by (rewrite firstn_length_le; lia).
    rewrite firstn_app, L, Nat.sub_diag, firstn_O, app_nil_r, (firstn_all2 (firstn 15 l)) by lia.
    change 16%nat with (15 + 1)%nat. rewrite <- skipn_skipn'. rewrite skipn_app_exact by (symmetry; exact L).
    rewrite skipn_app_exact by reflexivity.
    destruct (IH (n - 15)%nat ltac:(lia) (skipn 15 l) rest) as [rest' Er]; [rewrite skipn_length; lia|].
    rewrite Er. rewrite app_assoc, firstn_skipn. eexists. reflexivity.
Qed.
Lemma round_trip_control : forall (dec : list Z -> Z -> Z -> res (list Z)) enc (smp : list Z -> Z -> Z),
  (forall buf w h, bytes buf -> 0 < w -> w mod 2 = 0 -> 0 <= h ->
    let perline := w * 12 / 8 + (w + 2) / 10 in h * perline <= zlen buf ->
    exists img, dec buf w h = Ok img /\
      is_image img w h (fun r c => smp (without_control (skipn (Z.to_nat (r * perline)) buf)) c)) ->
  (forall img, bytes (enc img)) ->
  (forall img m, (12 * length img = 8 * m)%nat -> length (enc img) = m) ->
  (forall img rest k, Forall (fits 12) img -> (exists m, (12 * length img = 8 * m)%nat) -> 0 <= k < zlen img ->
     smp (enc img ++ rest) k = znth img k) ->
  forall rows w c, 0 < w -> w mod 2 = 0 -> byte c ->
  Forall (fun row => zlen row = w) rows -> Forall (Forall (fits 12)) rows ->
  dec (pack_rows (w * 12 / 8 + (w + 2) / 10) c (fun row => with_control c (enc row)) rows) w (Z.of_nat (length rows)) = Ok (concat rows).
Proof.
  intros dec enc smp Hdec Hbytes Hlen Hsmp rows w c Hw He Hc F Ff. set (s := w * 12 / 8 + (w + 2) / 10).
  assert (Hs : 0 <= s) by (unfold s; lia).
  set (e := fun row => with_control c (enc row)).
  assert (Fs : Forall (fun row => zlen (e row) <= s) rows).
  { eapply Forall_impl; [|exact F]. cbn beta. intros row Hr. destruct (row_even row w Hr He) as [m Hm].
    unfold e, zlen in *. rewrite (with_control_length c m) by (apply Hlen; assumption). unfold s. lia. }
  destruct (Hdec (pack_rows s c e rows) w (Z.of_nat (length rows))) as [img [E I]]; try assumption; try lia.
  - apply pack_rows_bytes; [assumption|]. intros row. unfold e. eapply with_control_bytes; eauto.
  - rewrite pack_rows_zlen by assumption. unfold s. lia.
  - rewrite E. f_equal. eapply rows_determined; [exact Hw|exact F|exact I|]. intros r k Hr Hk. cbv beta.
    fold s.
    destruct (pack_rows_skip s c e rows (Z.to_nat r) Fs Hs ltac:(lia)) as [rest Er].
    rewrite Z2Nat.id in Er by lia. rewrite Er. unfold e.
    destruct (without_with_control c _ (enc (nth (Z.to_nat r) rows [])) rest eq_refl) as [rest' Er']. rewrite Er'.
    assert (Hrow : zlen (nth (Z.to_nat r) rows []) = w).
    { rewrite Forall_forall in F. apply F. apply nth_In. lia. }
    apply Hsmp.
    + rewrite Forall_forall in Ff. apply Ff. apply nth_In. lia.
    + eapply row_even; eassumption.
    + lia.
Qed.

(** Interlaced files. *)
Lemma weave_nth : forall {A} (d : A) e o r, (length o <= length e <= S (length o))%nat -> (r < length e + length o)%nat ->
  nth r (weave e o) d = if Nat.even r then nth (Nat.div2 r) e d else nth (Nat.div2 r) o d.
Proof.
  intros A d e. induction e as [|x e IH]; intros o r Hl Hr.
  - cbn [length] in *. lia.
  - destruct o as [|y o].
    + cbn [length] in *. assert (length e = 0)%nat by lia. destruct e; [|discriminate]. assert (r = 0)%nat by lia. subst r. reflexivity.
    + cbn [length] in *. destruct r as [|[|r]]; [reflexivity|reflexivity|]. cbn [weave nth Nat.even Nat.div2].
      apply IH; lia.
Qed.
Lemma weave_length : forall {A} (e o : list A), length (weave e o) = (length e + length o)%nat.
Proof. induction e as [|x e IH]; intros o; [reflexivity|]. destruct o; cbn [weave length]; [lia|]. rewrite IH. lia. Qed.
Lemma weave_Forall : forall {A} (P : A -> Prop) e o, Forall P e -> Forall P o -> Forall P (weave e o).
Proof.
  intros A P e. induction e as [|x e IH]; intros o He Ho; [exact Ho|]. inversion He; subst.
  destruct o as [|y o]; [exact He|]. inversion Ho; subst. cbn [weave]. auto.
Qed.
Lemma even_mod : forall r, 0 <= r -> Nat.even (Z.to_nat r) = (r mod 2 =? 0).
Proof.
  intros r Hr. destruct (Nat.even (Z.to_nat r)) eqn:E.
  - apply Nat.even_spec in E. destruct E as [k Hk]. symmetry. apply Z.eqb_eq. lia.
  - assert (Ho : Nat.odd (Z.to_nat r) = true) by (unfold Nat.odd; rewrite E; reflexivity).
    apply Nat.odd_spec in Ho. destruct Ho as [k Hk]. symmetry. apply Z.eqb_neq. lia.
Qed.
Section Interlaced.
Variables (evens odds : list (list Z)) (w : Z).
Hypothesis Hw : 0 < w.
Hypothesis He : w mod 2 = 0.
Hypothesis Fe : Forall (fun row => zlen row = w) evens.
Hypothesis Fo : Forall (fun row => zlen row = w) odds.
Hypothesis Be : Forall (Forall (fits 12)) evens.
Hypothesis Bo : Forall (Forall (fits 12)) odds.
Hypothesis Hlen : (length odds <= length evens <= S (length odds))%nat.
Let h := Z.of_nat (length evens + length odds).
Lemma len_evens : Z.of_nat (length evens) = (h + 1) / 2. Proof. unfold h. lia. Qed.
Lemma len_odds : Z.of_nat (length odds) = h / 2. Proof. unfold h. lia. Qed.
Lemma zlen_evens : zlen (concat evens) = w * ((h + 1) / 2).
Proof. rewrite (concat_length_const _ w Fe). unfold zlen. rewrite len_evens. lia. Qed.
Lemma zlen_odds : zlen (concat odds) = w * (h / 2).
Proof. rewrite (concat_length_const _ w Fo). unfold zlen. rewrite len_odds. lia. Qed.
Lemma weave_pixel : forall r c, 0 <= r < h -> 0 <= c < w ->
  znth (nth (Z.to_nat r) (weave evens odds) []) c =
  if r mod 2 =? 0 then znth (concat evens) (r / 2 * w + c) else znth (concat odds) (r / 2 * w + c).
Proof.
  intros r c Hr Hc. rewrite weave_nth by (try assumption; unfold h in Hr; lia).
  rewrite even_mod by lia.
  assert (Ed : Nat.div2 (Z.to_nat r) = Z.to_nat (r / 2)) by (rewrite Nat.div2_div; lia). rewrite Ed.
  destruct (r mod 2 =? 0) eqn:Er.
  - symmetry. apply znth_concat; [assumption|unfold zlen; rewrite len_evens; lia|assumption].
  - symmetry. apply znth_concat; [assumption|unfold zlen; rewrite len_odds; lia|assumption].
Qed.
Theorem round_trip_interlaced_unaligned : forall rest, bytes rest ->
  decode_12be_interlaced_unaligned (pack 12 (concat evens ++ concat odds) ++ rest) w h = Ok (concat (weave evens odds)).
Proof.
  intros rest Hr. set (img := concat evens ++ concat odds).
  assert (Hh : 0 <= h) by (unfold h; lia).
  assert (Ll : zlen img = w * h).
  { unfold img. rewrite zlen_app, zlen_evens, zlen_odds, <- Z.mul_add_distr_l. f_equal. lia. }
  destruct (mult_even img w h Ll He) as [m Hm]. pose proof (pack_length 12 img m Hm) as L.
  assert (Hf : Forall (fits 12) img) by (apply Forall_app; split; apply Forall_concat'; assumption).
  destruct (decode_12be_interlaced_unaligned_image (pack 12 img ++ rest) w h) as [img' [E I]]; auto.
  - apply Forall_app. split; [apply pack_bytes|assumption].
  - rewrite zlen_app. unfold zlen in *. lia.
  - rewrite E. f_equal. eapply (rows_determined img' w (weave evens odds)); [exact Hw|apply weave_Forall; assumption| |].
    + rewrite weave_length. exact I.
    + rewrite weave_length. fold h. intros r c H1 H2. cbv beta. rewrite weave_pixel by assumption.
      assert (Hp : 0 <= r / 2 * w) by (apply Z.mul_nonneg_nonneg; lia).
      destruct (r mod 2 =? 0) eqn:Er.
      * assert (Hm1 : (r / 2 + 1) * w <= (h + 1) / 2 * w) by (apply Z.mul_le_mono_nonneg_r; lia).
        rewrite Z.mul_add_distr_r in Hm1.
        rewrite packed_sample_pack; eauto.
        -- unfold img. apply znth_app_l. rewrite zlen_evens. lia.
        -- unfold img. rewrite zlen_app, zlen_evens. pose proof (zlen_nonneg (concat odds)). lia.
      * assert (Hm1 : (r / 2 + 1) * w <= h / 2 * w) by (apply Z.mul_le_mono_nonneg_r; lia).
        rewrite Z.mul_add_distr_r in Hm1.
        assert (0 <= w * ((h + 1) / 2)) by (apply Z.mul_nonneg_nonneg; lia).
        rewrite packed_sample_pack; eauto.
        -- unfold img. rewrite znth_app_r; rewrite zlen_evens; [f_equal|]; lia.
        -- unfold img. rewrite zlen_app, zlen_evens, zlen_odds. lia.
Qed.
Theorem round_trip_interlaced : forall c rest, byte c -> bytes rest ->
  let second := 2048 * ((h + 1) / 2 * w * 3 / 2 / 2048 + 1) in
  decode_12be_interlaced (padded second c (pack 12 (concat evens)) ++ pack 12 (concat odds) ++ rest) w h = Ok (concat (weave evens odds)).
Proof.
  intros c rest Hc Hr second. assert (Hh : 0 <= h) by (unfold h; lia).
  destruct (mult_even (concat evens) w _ zlen_evens He) as [m1 Hm1]. pose proof (pack_length 12 _ m1 Hm1) as L1.
  destruct (mult_even (concat odds) w _ zlen_odds He) as [m2 Hm2]. pose proof (pack_length 12 _ m2 Hm2) as L2.
  pose proof zlen_evens as Z1. pose proof zlen_odds as Z2. unfold zlen in Z1, Z2.
  assert (exists a, w = 2 * a) as [a Ea] by (exists (w / 2); lia).
  assert (Hse : second = 2048 * (3 * ((h + 1) / 2 * a) / 2048 + 1)).
  { unfold second. replace ((h + 1) / 2 * w * 3) with (3 * ((h + 1) / 2 * a) * 2) by (rewrite Ea; lia).
    rewrite Z.div_mul by lia. reflexivity. }
  assert (M1 : Z.of_nat m1 = 3 * ((h + 1) / 2 * a)).
  { replace (w * ((h + 1) / 2)) with (2 * ((h + 1) / 2 * a)) in Z1 by (rewrite Ea; lia). lia. }
  assert (M2 : Z.of_nat m2 = 3 * (h / 2 * a)).
  { replace (w * (h / 2)) with (2 * (h / 2 * a)) in Z2 by (rewrite Ea; lia). lia. }
  set (q := (h + 1) / 2 * a) in *. set (q2 := h / 2 * a) in *.
  assert (Hfit : zlen (pack 12 (concat evens)) <= second) by (unfold zlen; lia).
  pose proof (padded_zlen second c _ Hfit) as Lp.
  set (A := padded second c (pack 12 (concat evens))) in *.
  assert (Hf1 : Forall (fits 12) (concat evens)) by (apply Forall_concat'; assumption).
  assert (Hf2 : Forall (fits 12) (concat odds)) by (apply Forall_concat'; assumption).
  destruct (decode_12be_interlaced_image (A ++ pack 12 (concat odds) ++ rest) w h) as [img' [E I]]; auto.
  - apply Forall_app; split; [apply padded_bytes; [assumption|apply pack_bytes]|].
    apply Forall_app; split; [apply pack_bytes|assumption].
  - fold second. rewrite !zlen_app, Lp. pose proof (zlen_nonneg rest).
    replace (h / 2 * (w * 12 / 8)) with (3 * q2); [unfold zlen; lia|].
    replace (w * 12 / 8) with (3 * a) by lia. unfold q2. lia.
  - rewrite E. f_equal. eapply (rows_determined img' w (weave evens odds)); [exact Hw|apply weave_Forall; assumption| |].
    + rewrite weave_length. exact I.
    + rewrite weave_length. fold h. intros r k H1 H2. cbv beta. fold second. rewrite weave_pixel by assumption.
      assert (Hp : 0 <= r / 2 * w) by (apply Z.mul_nonneg_nonneg; lia).
      destruct (r mod 2 =? 0) eqn:Er.
      * assert (Hx : (r / 2 + 1) * w <= (h + 1) / 2 * w) by (apply Z.mul_le_mono_nonneg_r; lia).
        rewrite Z.mul_add_distr_r in Hx.
        unfold A, padded. rewrite <- app_assoc. apply packed_sample_pack; eauto. rewrite zlen_evens. lia.
      * assert (Hx : (r / 2 + 1) * w <= h / 2 * w) by (apply Z.mul_le_mono_nonneg_r; lia).
        rewrite Z.mul_add_distr_r in Hx.
        rewrite skipn_app_exact by (unfold zlen in Lp; lia). apply packed_sample_pack; eauto. rewrite zlen_odds. lia.
Qed.
End Interlaced.

(** * Shape of every successful result *)
Section Shape.
Variable P : Z -> Prop.
Hypothesis P0 : P 0.
Definition keeps (body : list Z -> list Z -> res (list Z)) : Prop :=
  forall o i o', bytes i -> Forall P o -> body o i = Ok o' -> zlen o' = zlen o /\ Forall P o'.
Lemma store_keeps : forall vs o k o', Forall P vs -> Forall P o -> store o k vs = Ok o' -> zlen o' = zlen o /\ Forall P o'.
Proof.
  induction vs as [|v vs IH]; intros o k o' Hv Ho H; cbn [store] in H.
  - injection H as <-. auto.
  - inversion Hv as [|? ? Pv Pvs]; subst. apply bind_inv in H. destruct H as [o1 [Hu H]].
    pose proof (upd_inv _ _ _ _ Hu) as [Hr Eu].
    assert (Po1 : Forall P o1) by (exact (upd_Forall P _ _ _ _ Hu Ho Pv)).
    destruct (IH _ _ _ Pvs Po1 H) as [L F]. split; [|assumption].
    rewrite L, Eu. apply zlen_upd_nat.
Qed.
Lemma zip_aux_keeps : forall no ni body, keeps body -> forall f, keeps (zip_chunks_aux f no ni body).
Proof.
  intros no ni body Hb f. induction f as [|f IH]; intros o i o' Hi Ho H; cbn [zip_chunks_aux] in H.
  - injection H as <-. auto.
  - destruct o as [|x o]; [injection H as <-; auto|]. destruct i as [|y i]; [injection H as <-; auto|].
    apply bind_inv in H. destruct H as [o1 [H1 H]]. apply bind_inv in H. destruct H as [o2 [H2 H]]. injection H as <-.
    apply Hb in H1; [|apply Forall_firstn; assumption|apply Forall_firstn; assumption]. destruct H1 as [L1 F1].
    apply IH in H2; [|apply Forall_skipn; assumption|apply Forall_skipn; assumption]. destruct H2 as [L2 F2].
    split; [|apply Forall_app; auto]. rewrite zlen_app, L1, L2, <- zlen_app, firstn_skipn. reflexivity.
Qed.
Lemma zip_keeps : forall no ni body, keeps body -> keeps (zip_chunks no ni body).
Proof. intros no ni body Hb o i o'. apply zip_aux_keeps. assumption. Qed.
Lemma zeros_P : forall n, Forall P (zeros n).
Proof. intros n. apply Forall_forall. intros x Hx. apply repeat_spec in Hx. subst. assumption. Qed.
Lemma rows_keep : forall w h src line img, 0 <= w -> 0 <= h -> (forall r inb, src r = Ok inb -> bytes inb) -> keeps line ->
  decode_threaded w h (fun out row => inb <- src row ;; line out inb) = Ok img -> zlen img = w * h /\ Forall P img.
Proof.
  intros w h src line img Hw Hh Hs Hk H. apply (decode_threaded_shape w h _ img P H Hw Hh).
  intros r l Hr E. cbv beta in E. apply bind_inv in E. destruct E as [inb [E1 E2]].
  apply Hk in E2; [|eapply Hs; eassumption|apply zeros_P]. rewrite zlen_zeros in E2. replace (Z.max 0 w) with w in E2 by lia.
  assumption.
Qed.
Lemma slice_from_bytes : forall buf a inb, bytes buf -> slice_from buf a = Ok inb -> bytes inb.
Proof. intros buf a inb Hb H. apply slice_from_inv in H. destruct H as [_ ->]. apply Forall_skipn. assumption. Qed.
Lemma whole_keeps : forall w h no ni body buf img, 0 <= w -> 0 <= h -> bytes buf -> keeps body ->
  zip_chunks no ni body (zeros (w * h)) buf = Ok img -> zlen img = w * h /\ Forall P img.
Proof.
  intros w h no ni body buf img Hw Hh Hb Hk H. apply (zip_keeps no ni body Hk) in H; [|assumption|apply zeros_P].
  rewrite zlen_zeros in H. replace (Z.max 0 (w * h)) with (w * h) in H by nia. assumption.
Qed.
Lemma unpacked_keeps : forall w rd, (forall b v, bytes b -> rd b = Ok v -> P v) -> keeps (unpacked_line w rd).
Proof.
  intros w rd Hrd o i o' Hi Ho H. unfold unpacked_line in H.
  assert (Hc : forall k l, (length l <= k)%nat -> bytes l -> Forall bytes (chunks 2 l)).
  { induction k as [|k IH]; intros l Hl Hb.
    - destruct l; [constructor|cbn in Hl; lia].
    - destruct l as [|x l]; [constructor|]. rewrite chunks_cons by (try lia; discriminate).
      constructor; [apply Forall_firstn; assumption|]. apply IH; [rewrite skipn_length; cbn [length] in *; lia|apply Forall_skipn; assumption]. }
  specialize (Hc _ i (Nat.le_refl _) Hi). revert o Ho H. generalize (zrange 0 w). induction Hc as [|b bs Hb Hbs IH]; intros xs o Ho H.
  - destruct xs; cbn [combine rfold] in H; injection H as <-; auto.
  - destruct xs as [|x xs]; cbn [combine rfold] in H; [injection H as <-; auto|].
    apply bind_inv in H. destruct H as [o1 [H1 H]]. apply bind_inv in H1. destruct H1 as [v [E1 E2]].
    pose proof (upd_inv _ _ _ _ E2) as [Hr Eu].
    assert (Po1 : Forall P o1) by (exact (upd_Forall P _ _ _ _ E2 Ho (Hrd _ _ Hb E1))).
    destruct (IH xs o1 Po1 H) as [L F]. split; [|assumption]. rewrite L, Eu. apply zlen_upd_nat.
Qed.
End Shape.

Lemma lor_fits : forall n a b, fits n a -> fits n b -> fits n (Z.lor a b).
Proof.
  intros n a b Ha Hb. unfold fits in *. split; [apply Z.lor_nonneg; lia|].
  destruct (Z.eq_dec (Z.lor a b) 0) as [->|Hn]; [apply pow2_pos_nat|].
  apply Z.log2_lt_pow2; [assert (0 <= Z.lor a b) by (apply Z.lor_nonneg; lia); lia|].
  rewrite Z.log2_lor by lia.
  destruct n as [|n].
  - change (2 ^ Z.of_nat 0) with 1 in *. assert (a = 0) by lia. assert (b = 0) by lia. subst. contradiction Hn. reflexivity.
  - apply Z.max_lub_lt.
    + destruct (Z.eq_dec a 0) as [->|]; [cbn; lia|]. apply Z.log2_lt_pow2; lia.
    + destruct (Z.eq_dec b 0) as [->|]; [cbn; lia|]. apply Z.log2_lt_pow2; lia.
Qed.
Ltac fits_byte :=
  repeat (first [apply lor_fits | assumption]);
  unfold fits, byte in *;
  rewrite ?Z.shiftl_mul_pow2, ?Z.shiftr_div_pow2 by lia;
  rewrite ?(land_ones_mod _ 2), ?(land_ones_mod _ 4), ?(land_ones_mod _ 6) by lia;
  change 0x0f with (2 ^ 4 - 1); change 0x3f with (2 ^ 6 - 1); change 0x03 with (2 ^ 2 - 1);
  rewrite ?land_ones_mod by lia;
  repeat match goal with |- context [2 ^ Z.of_nat ?n] => change (2 ^ Z.of_nat n) with (2 ^ (Z.of_nat n)) end;
  cbn [Z.of_nat Pos.of_succ_nat Pos.succ]; p2lia.
Ltac body_shape :=
  let o := fresh "o" in let i := fresh "i" in let o' := fresh "o'" in let Hi := fresh "Hi" in let Ho := fresh "Ho" in
  let H := fresh "H" in
  intros o i o' Hi Ho H;
  repeat match type of H with
  | bind (get _ _) _ = Ok _ =>
      let g := fresh "g" in let E := fresh "E" in let R := fresh "R" in let B := fresh "B" in
      apply bind_inv in H; destruct H as [g [E H]]; apply get_znth_inv in E; destruct E as [R E];
      pose proof (znth_Forall byte i _ Hi R) as B; rewrite <- E in B; clear E R; cbv beta in B
  end;
  refine (store_keeps _ _ _ _ _ _ Ho H); clear H; repeat first [apply Forall_nil | apply Forall_cons]; fits_byte.
Lemma body_12be_keeps : keeps (fits 12) body_12be. Proof. unfold body_12be. body_shape. Qed.
Lemma body_12le_keeps : keeps (fits 12) body_12le. Proof. unfold body_12le. body_shape. Qed.
Lemma body_12be_msb16_keeps : keeps (fits 12) body_12be_msb16. Proof. unfold body_12be_msb16. body_shape. Qed.
Lemma body_12be_msb32_keeps : keeps (fits 12) body_12be_msb32. Proof. unfold body_12be_msb32. body_shape. Qed.
Lemma body_10le_lsb16_keeps : keeps (fits 10) body_10le_lsb16. Proof. unfold body_10le_lsb16. body_shape. Qed.
Lemma body_10le_keeps : keeps (fits 10) body_10le. Proof. unfold body_10le. body_shape. Qed.

(** Every packed layout: number of samples and bit depth of any result. *)
Section AllShapes.
Context {M : Mode}.
Lemma fits0 : forall nb, fits nb 0.
Proof. intros. unfold fits. pose proof (pow2_pos_nat nb). lia. Qed.
Lemma row_shape : forall nb no ni body (off : Z -> Z -> Z), keeps (fits nb) body ->
  shape_ok nb (fun buf w h => decode_threaded w h (fun out row => inb <- slice_from buf (off w row) ;; zip_chunks no ni body out inb)).
Proof.
  intros nb no ni body off Hk buf w h img Hb Hw Hh H.
  refine (rows_keep (fits nb) (fits0 nb) w h (fun row => slice_from buf (off w row)) (zip_chunks no ni body) img Hw Hh _ _ H).
  - intros r inb. apply slice_from_bytes. assumption.
  - apply zip_keeps. assumption.
Qed.
Lemma interlaced_shape : forall buf second w h img, bytes buf -> bytes second -> 0 <= w -> 0 <= h ->
  interlaced_rows buf second w h = Ok img -> Z.of_nat (length img) = w * h /\ Forall (fits 12) img.
Proof.
  intros buf second w h img Hb Hb2 Hw Hh H. unfold interlaced_rows in H.
  refine (rows_keep (fits 12) (fits0 12) w h (fun row => if row mod 2 =? 0 then slice_from buf (row / 2 * w * 12 / 8)
     else slice_from second (row / 2 * w * 12 / 8)) (zip_chunks 2 3 body_12be) img Hw Hh _ _ H).
  - intros r inb E. destruct (r mod 2 =? 0); eapply slice_from_bytes; try exact E; assumption.
  - apply zip_keeps, body_12be_keeps.
Qed.
Lemma unpacked_shape : forall nb skip rd, (forall b v, bytes b -> rd b = Ok v -> fits nb v) -> shape_ok nb (unpacked skip rd).
Proof.
  intros nb skip rd Hrd buf w h img Hb Hw Hh H. unfold unpacked in H.
  refine (rows_keep (fits nb) (fits0 nb) w h (fun row => slice_from buf (row * w * skip)) (unpacked_line w rd) img Hw Hh _ _ H).
  - intros r inb. apply slice_from_bytes. assumption.
  - apply unpacked_keeps. assumption.
Qed.
Lemma LEu16_fits : forall b v, bytes b -> LEu16 b 0 = Ok v -> fits 16 v.
Proof.
  intros b v Hb H. assert (Hz : 0 + 2 <= zlen b).
  { destruct (Z_le_gt_dec 2 (zlen b)); [lia|]. rewrite LEu16_oob in H by lia. discriminate. }
  rewrite LEu16_spec in H by (try assumption; lia). injection H as <-.
  pose proof (little_endian_value_range _ (sub_list_bytes b 0 2 Hb)) as R. rewrite sub_list_length in R by lia. exact R.
Qed.
Lemma BEu16_fits : forall b v, bytes b -> BEu16 b 0 = Ok v -> fits 16 v.
Proof.
  intros b v Hb H. assert (Hz : 0 + 2 <= zlen b).
  { destruct (Z_le_gt_dec 2 (zlen b)); [lia|]. rewrite BEu16_oob in H by lia. discriminate. }
  rewrite BEu16_spec in H by (try assumption; lia). injection H as <-.
  pose proof (big_endian_value_range _ (sub_list_bytes b 0 2 Hb)) as R. rewrite sub_list_length in R by lia. exact R.
Qed.
Theorem packed_shapes :
  shape_ok 10 decode_10le_lsb16 /\ shape_ok 10 decode_10le /\
  shape_ok 12 decode_12be /\ shape_ok 12 decode_12le /\ shape_ok 12 decode_12be_msb16 /\ shape_ok 12 decode_12be_msb32 /\
  shape_ok 12 decode_12le_16bitaligned /\ shape_ok 12 decode_12le_wcontrol /\ shape_ok 12 decode_12be_wcontrol /\
  shape_ok 12 decode_12be_interlaced /\ shape_ok 12 decode_12be_interlaced_unaligned /\
  shape_ok 12 decode_12le_unpacked /\ shape_ok 12 decode_12be_unpacked /\
  shape_ok 12 decode_12be_unpacked_left_aligned /\ shape_ok 12 decode_12le_unpacked_left_aligned /\
  shape_ok 14 decode_14le_unpacked /\ shape_ok 14 decode_14be_unpacked /\
  shape_ok 16 decode_16le /\ shape_ok 16 decode_16be /\ shape_ok 16 decode_16le_skiplines.
Proof.
  assert (U : forall f n rd, (forall b v, bytes b -> rd b = Ok v -> fits 16 v) ->
    (forall v, fits 16 v -> fits n (f v)) ->
    forall b v, bytes b -> (x <- rd b ;; Ok (f x)) = Ok v -> fits n v).
  { intros f n rd H1 H2 b v Hb H. apply bind_inv in H. destruct H as [x [E H]]. injection H as <-. apply H2. eapply H1; eassumption. }
  assert (F12 : forall v, fits 16 v -> fits 12 (Z.land v 0x0fff)).
  { intros v _. rewrite land_mod12. unfold fits. change (2 ^ Z.of_nat 12) with 4096. lia. }
  assert (F14 : forall v, fits 16 v -> fits 14 (Z.land v 0x3fff)).
  { intros v _. rewrite land_mod14. unfold fits. change (2 ^ Z.of_nat 14) with 16384. lia. }
  assert (S4 : forall v, fits 16 v -> fits 12 (Z.shiftr v 4)).
  { intros v. rewrite shr4. unfold fits. change (2 ^ Z.of_nat 12) with 4096. change (2 ^ Z.of_nat 16) with 65536. lia. }
  split; [apply (row_shape 10 8 10 body_10le_lsb16 (fun w row => row * w * 10 / 8)), body_10le_lsb16_keeps|].
  split; [apply (row_shape 10 4 5 body_10le (fun w row => row * w * 10 / 8)), body_10le_keeps|].
  split; [apply (row_shape 12 2 3 body_12be (fun w row => row * w * 12 / 8)), body_12be_keeps|].
  split; [apply (row_shape 12 2 3 body_12le (fun w row => row * w * 12 / 8)), body_12le_keeps|].
  split; [intros buf w h img Hb Hw Hh H; eapply whole_keeps; [apply fits0|exact Hw|exact Hh|exact Hb| |exact H]; apply body_12be_msb16_keeps|].
  split; [intros buf w h img Hb Hw Hh H; eapply whole_keeps; [apply fits0|exact Hw|exact Hh|exact Hb| |exact H]; apply body_12be_msb32_keeps|].
  split; [apply (row_shape 12 2 3 body_12be (fun w row => row * (((w * 12 / 8 + 1) >>> 1) <<< 1))), body_12be_keeps|].
  split; [apply (row_shape 12 10 16 (fun oc ic => zip_chunks 2 3 body_12le oc ic) (fun w row => row * (w * 12 / 8 + (w + 2) / 10)));
          exact (zip_keeps _ 2 3 _ body_12le_keeps)|].
  split; [apply (row_shape 12 10 16 (fun oc ic => zip_chunks 2 3 body_12be oc ic) (fun w row => row * (w * 12 / 8 + (w + 2) / 10)));
          exact (zip_keeps _ 2 3 _ body_12be_keeps)|].
  split.
  { intros buf w h img Hb Hw Hh H. unfold decode_12be_interlaced in H. apply bind_inv in H. destruct H as [s [Es H]].
    eapply interlaced_shape; [exact Hb|eapply slice_from_bytes; eassumption|assumption..]. }
  split.
  { intros buf w h img Hb Hw Hh H. unfold decode_12be_interlaced_unaligned in H. apply bind_inv in H. destruct H as [s [Es H]].
    eapply interlaced_shape; [exact Hb|eapply slice_from_bytes; eassumption|assumption..]. }
  split; [apply unpacked_shape; exact (U (fun v => Z.land v 0x0fff) 12%nat (fun b => LEu16 b 0) LEu16_fits F12)|].
  split; [apply unpacked_shape; exact (U (fun v => Z.land v 0x0fff) 12%nat (fun b => BEu16 b 0) BEu16_fits F12)|].
  split; [apply unpacked_shape; exact (U (fun v => Z.shiftr v 4) 12%nat (fun b => BEu16 b 0) BEu16_fits S4)|].
  split; [apply unpacked_shape; exact (U (fun v => Z.shiftr v 4) 12%nat (fun b => LEu16 b 0) LEu16_fits S4)|].
  split; [apply unpacked_shape; exact (U (fun v => Z.land v 0x3fff) 14%nat (fun b => LEu16 b 0) LEu16_fits F14)|].
  split; [apply unpacked_shape; exact (U (fun v => Z.land v 0x3fff) 14%nat (fun b => BEu16 b 0) BEu16_fits F14)|].
  split; [apply unpacked_shape; apply LEu16_fits|].
  split; [apply unpacked_shape; apply BEu16_fits|].
  apply unpacked_shape; apply LEu16_fits.
Qed.
End AllShapes.
