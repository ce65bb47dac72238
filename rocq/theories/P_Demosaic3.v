(** The samples of a demosaiced picture. *)
From Coq Require Import String ZArith List Bool Reals Lia Lra ZifyBool ZifyNat Permutation.
From Flocq Require Import Core BinarySingleNaN.
From Verif Require Import Base Num F32 Threads Cfa Transform Image Gofloat Demosaic Spec_Cfa Spec_Orient Spec_Rgb P_Base P_Cfa P_Orient P_F32 P_Scale P_Scale2 P_Gofloat P_Demosaic P_Demosaic2.
Import ListNotations.
Local Open Scope Z_scope.

Section S.
Context {M : Mode}.
Variables (cbrt : f32 -> f32) (pow : f32 -> f32 -> f32).
Let N : Num f32 := f32_num cbrt pow.
Local Existing Instance N.
Variable img : rawimage f32.
Variable name : string.
Hypothesis RO : raw_ok img.
Hypothesis CO : crop_ok img.
Hypothesis C1 : i_cpp img = 1.
Hypothesis EN : cfa_new name = Ok (i_cfa img).
Hypothesis PN : pattern_name name.
Variables buf out : opbuf f32.
Hypothesis EB : gofloat img = Ok buf.
Hypothesis EO : demosaic_and_scale img buf 0 0 = Ok out.

Notation col := (colf img name).

Lemma facts :
  well_formed out /\ ocolors out = 4 /\ owidth out = i_width img - left img - right img /\ oheight out = i_height img - top img - bottom img /\
  owidth buf = owidth out /\ oheight buf = oheight out /\
  (forall y x, inside img (y, x) -> exists v, measured img (y, x) = Some v /\ 0 <= v < 65536 /\ val buf y x = n_of v) /\
  (forall y x k, inside img (y, x) -> 0 <= k < 4 -> sample_at out y x k = Some (demosaiced buf col y x k)) /\
  (forall p, inside img p -> seen img name p = Some (col (fst p) (snd p)) /\ 0 <= col (fst p) (snd p) < 4).
Proof.
  destruct (demosaic_exists cbrt pow img name RO CO C1 EN PN) as [buf' [out' [E1 [E2 [WO [C4 [OW [OH [WB [CB [BW [BH [V S]]]]]]]]]]]]].
  unfold N in EB, EO. rewrite E1 in EB. injection EB as <-. rewrite E2 in EO. injection EO as <-.
  split; [exact WO|]. split; [exact C4|]. split; [exact OW|]. split; [exact OH|]. split; [congruence|]. split; [congruence|]. split; [|split].
  - intros y x [I1 I2]. cbn in I1, I2. apply V; lia.
  - intros y x k [I1 I2] Hk. cbn in I1, I2. apply S; lia.
  - intros [y x] [I1 I2]. cbn [fst snd] in *. destruct (crop_color (M := M) img name RO CO C1 EN PN) as [cfa [_ P]]. destruct (P y x I1 I2) as [_ [P1 P2]]. unfold seen. cbn [fst snd]. auto.
Qed.
Lemma kept : forall y x, inside img (y, x) -> exists c v, seen img name (y, x) = Some c /\ measured img (y, x) = Some v /\ sample_at out y x c = Some (f32_of v).
Proof.
  intros y x I. destruct facts as (_ & _ & _ & _ & _ & _ & V & S & C). destruct (C (y, x) I) as [C2 C3]. cbn [fst snd] in C2, C3. destruct (V y x I) as [v [V1 [V2 V3]]].
  exists (col y x), v. split; [exact C2|]. split; [exact V1|]. rewrite S by assumption. unfold demosaiced. rewrite Z.eqb_refl. rewrite V3. reflexivity.
Qed.

Lemma total_exact : forall ps, (forall p, In p ps -> inside img p) -> forall (start : f32) a, is_number start (IZR a) -> 0 <= a -> a + 65535 * zlen ps <= 2 ^ 24 ->
  exists s, sum_measured img ps = Some s /\ is_number (total buf ps start) (IZR (a + s)) /\ 0 <= s <= 65535 * zlen ps.
Proof.
  destruct facts as (_ & _ & _ & _ & _ & _ & V & _). induction ps as [|[y x] ps IH]; intros I start a Ha Ra B.
  - exists 0. split; [reflexivity|]. rewrite Z.add_0_r. split; [exact Ha|]. unfold zlen. cbn. lia.
  - rewrite zlen_cons in B. pose proof (zlen_nonneg ps). destruct (V y x) as [v [V1 [V2 V3]]]; [apply I; left; reflexivity|].
    assert (K : is_number (n_add start (val buf y x)) (IZR (a + v))).
    { rewrite V3. apply (add_exact cbrt pow); [exact Ha|apply (of_number cbrt pow)|..]; change (2 ^ 24) with 16777216 in *; lia. }
    destruct (IH (fun p Hp => I p (or_intror Hp)) (n_add start (val buf y x)) (a + v) K) as [s [S1 [S2 S3]]]; [lia|lia|].
    exists (v + s). cbn [sum_measured]. rewrite V1, S1. split; [reflexivity|]. split; [|rewrite zlen_cons; lia]. cbn [total fold_left fst snd] in *. rewrite Z.add_assoc. exact S2.
Qed.

(** The neighbours of one colour. *)
Definition others (y x k : Z) : list (Z * Z) := of_color col k (around buf y x).
Lemma others_In : forall y x k p, inside img (y, x) -> In p (others y x k) <-> (inside img p /\ near (y, x) p /\ seen img name p = Some k).
Proof.
  intros y x k p I. destruct facts as (_ & _ & OW & OH & BW & BH & _ & _ & C). unfold others, of_color. rewrite filter_In, around_In. rewrite BW, BH, OW, OH. unfold inside, near in *. cbn [fst snd] in *. split.
  - intros [[H1 H2] H3]. assert (Ip : inside img p) by (unfold inside; lia). destruct (C p Ip) as [C2 _]. rewrite C2. split; [exact Ip|]. split; [lia|]. f_equal. lia.
  - intros [Ip [H1 H2]]. destruct (C p Ip) as [C2 _]. rewrite C2 in H2. injection H2 as H2. split; lia.
Qed.
Lemma sum_perm : forall a b, Permutation a b -> sum_measured img a = sum_measured img b.
Proof.
  intros a b P. induction P; cbn [sum_measured]; [reflexivity|rewrite IHP; reflexivity| |congruence].
  destruct (measured img x), (measured img y), (sum_measured img l); try reflexivity. f_equal. lia.
Qed.
Lemma others_NoDup : forall y x k, NoDup (others y x k).
Proof. intros. apply NoDup_filter. apply around_NoDup. Qed.
Lemma filter_length : forall {X} (f : X -> bool) l, (length (filter f l) <= length l)%nat.
Proof. induction l; cbn; [lia|]. destruct (f a); cbn; lia. Qed.
Lemma others_length : forall y x k, zlen (others y x k) <= 9.
Proof.
  intros. unfold others, of_color, zlen. pose proof (around_length buf y x). pose proof (filter_length (fun p => col (fst p) (snd p) =? k) (around buf y x)). lia.
Qed.
Lemma mean_at : forall y x k, inside img (y, x) -> 0 <= k < 4 -> seen img name (y, x) <> Some k -> others y x k <> [] ->
  exists f s, sample_at out y x k = Some f /\ sum_measured img (others y x k) = Some s /\ is_number f (nearest (IZR s / IZR (zlen (others y x k)))) /\ 0 <= s <= 65535 * zlen (others y x k).
Proof.
  intros y x k I Hk Hne Hnil. pose proof facts as (_ & _ & _ & _ & _ & _ & _ & S & C). rewrite (S y x k I Hk).
  destruct (C (y, x) I) as [C2 _]. cbn [fst snd] in C2. unfold demosaiced. replace (k =? col y x) with false by (symmetry; apply Z.eqb_neq; congruence).
  fold (others y x k). cbv zeta. set (ps := others y x k) in *.
  assert (L1 : 0 < zlen ps) by (destruct ps; [congruence|rewrite zlen_cons; pose proof (zlen_nonneg ps); lia]).
  pose proof (others_length y x k) as L9. fold ps in L9. replace (0 <? zlen ps) with true by lia.
  destruct (total_exact ps) with (start := n0 (A := f32)) (a := 0) as [s [S1 [S2 S3]]].
  - intros p Hp. apply (others_In y x k p I) in Hp. tauto.
  - destruct (n0_val cbrt pow) as [F V]. split; assumption.
  - lia.
  - change (2 ^ 24) with 16777216. lia.
  - exists (n_div (total buf ps n0) (n_of (zlen ps))), s. split; [reflexivity|]. split; [exact S1|]. split; [|exact S3].
    destruct (of_number cbrt pow (zlen ps)) as [F9 V9]; [change (2 ^ 24) with 16777216; lia|]. destruct S2 as [FS VS]. rewrite Z.add_0_l in VS.
    destruct (div_val (total buf ps n0) (n_of (zlen ps))) as [D1 D2].
    + exact FS.
    + unfold N. rewrite V9. apply not_0_IZR. lia.
    + unfold N in *. rewrite VS, V9. rewrite Rabs_pos_eq by (apply Rmult_le_pos; [apply IZR_le; lia|left; apply Rinv_0_lt_compat; apply IZR_lt; lia]).
      apply Rmult_le_reg_r with (IZR (zlen ps)); [apply IZR_lt; lia|]. unfold Rdiv. rewrite Rmult_assoc, Rinv_l by (apply not_0_IZR; lia). rewrite Rmult_1_r, <- mult_IZR. apply IZR_le. change (2 ^ 64) with 18446744073709551616. lia.
    + split; [exact D1|]. unfold N in *. cbn [n_div f32_num]. rewrite D2, VS, V9. reflexivity.
Qed.
Lemma mean : forall y x k ps, inside img (y, x) -> 0 <= k < 4 -> seen img name (y, x) <> Some k -> NoDup ps ->
  (forall p, In p ps <-> (inside img p /\ near (y, x) p /\ seen img name p = Some k)) -> ps <> [] ->
  exists f s, sample_at out y x k = Some f /\ sum_measured img ps = Some s /\ is_number f (nearest (IZR s / IZR (Z.of_nat (length ps)))).
Proof.
  intros y x k ps I Hk Hne ND HI Hnil.
  assert (P : Permutation (others y x k) ps) by (apply NoDup_Permutation; [apply others_NoDup|exact ND|]; intros p; rewrite (others_In y x k p I), HI; reflexivity).
  destruct (mean_at y x k I Hk Hne) as [f [s [F1 [F2 [F3 _]]]]].
  - intros E. rewrite E in P. apply Permutation_nil in P. contradiction.
  - exists f, s. split; [exact F1|]. split; [rewrite <- (sum_perm _ _ P); exact F2|]. unfold zlen in F3. rewrite (Permutation_length P) in F3. exact F3.
Qed.
Lemma no_neighbour : forall y x k, inside img (y, x) -> 0 <= k < 4 -> seen img name (y, x) <> Some k ->
  (forall p, inside img p -> near (y, x) p -> seen img name p <> Some k) -> sample_at out y x k = Some (f32_of 0).
Proof.
  intros y x k I Hk Hne Hno. pose proof facts as (_ & _ & _ & _ & _ & _ & _ & S & C). rewrite (S y x k I Hk).
  destruct (C (y, x) I) as [C2 _]. cbn [fst snd] in C2. unfold demosaiced. replace (k =? col y x) with false by (symmetry; apply Z.eqb_neq; congruence).
  fold (others y x k). cbv zeta. replace (others y x k) with (@nil (Z * Z)); [reflexivity|]. symmetry.
  destruct (others y x k) as [|p ps] eqn:E; [reflexivity|]. exfalso. assert (In p (others y x k)) by (rewrite E; left; reflexivity). apply (others_In y x k p I) in H. destruct H as [H1 [H2 H3]]. exact (Hno p H1 H2 H3).
Qed.
Lemma sum_between : forall ps lo hi, (forall p, In p ps -> exists v, measured img p = Some v /\ lo <= v <= hi) ->
  forall s, sum_measured img ps = Some s -> lo * zlen ps <= s <= hi * zlen ps.
Proof.
  induction ps as [|p ps IH]; intros lo hi HP s E.
  - cbn in E. injection E as <-. unfold zlen. cbn. lia.
  - cbn [sum_measured] in E. destruct (HP p (or_introl eq_refl)) as [v [V1 V2]]. rewrite V1 in E. destruct (sum_measured img ps) as [t|] eqn:Et; [|discriminate]. injection E as <-.
    specialize (IH lo hi (fun q Hq => HP q (or_intror Hq)) t eq_refl). rewrite zlen_cons. lia.
Qed.
Lemma between : forall y x k lo hi, inside img (y, x) -> 0 <= k < 4 -> seen img name (y, x) <> Some k -> 0 <= lo -> hi < 65536 ->
  (exists p, inside img p /\ near (y, x) p /\ seen img name p = Some k) ->
  (forall p, inside img p -> near (y, x) p -> seen img name p = Some k -> exists v, measured img p = Some v /\ lo <= v <= hi) ->
  exists f, sample_at out y x k = Some f /\ is_finite f = true /\ (IZR lo <= B2R f <= IZR hi)%R.
Proof.
  intros y x k lo hi I Hk Hne Hlo Hhi [p0 Hp0] HB. assert (Hnil : others y x k <> []).
  { intros E. apply (others_In y x k p0 I) in Hp0. rewrite E in Hp0. destruct Hp0. }
  destruct (mean_at y x k I Hk Hne Hnil) as [f [s [F1 [F2 [[F3 F4] F5]]]]]. exists f. split; [exact F1|]. split; [exact F3|].
  rewrite F4. set (ps := others y x k) in *. assert (L1 : 0 < zlen ps) by (destruct ps; [congruence|rewrite zlen_cons; pose proof (zlen_nonneg ps); lia]).
  assert (B : lo * zlen ps <= s <= hi * zlen ps).
  { apply (sum_between ps lo hi); [|exact F2]. intros p Hp. apply (others_In y x k p I) in Hp. destruct Hp as [H1 [H2 H3]]. apply HB; assumption. }
  assert (lo <= hi) by nia.
  assert (Lp : (0 < IZR (zlen ps))%R) by (apply IZR_lt; lia).
  split.
  - apply RN_ge; [apply gf_int; change (2 ^ 24) with 16777216; lia|]. apply Rmult_le_reg_r with (IZR (zlen ps)); [exact Lp|]. unfold Rdiv. rewrite Rmult_assoc, Rinv_l by lra. rewrite Rmult_1_r, <- mult_IZR. apply IZR_le. lia.
  - apply RN_le; [apply gf_int; change (2 ^ 24) with 16777216; lia|]. apply Rmult_le_reg_r with (IZR (zlen ps)); [exact Lp|]. unfold Rdiv. rewrite Rmult_assoc, Rinv_l by lra. rewrite Rmult_1_r, <- mult_IZR. apply IZR_le. lia.
Qed.
End S.
