(** Minolta files (C63). *)
From Coq Require Import String Ascii ZArith List Bool Reals Lia ZifyBool.
From Flocq Require Import Core BinarySingleNaN.
From Verif Require Import Base Num F32 Bytes Packed Tiff Transform Image Camera Clients Decoder Dec_Header Dispatch.
From Verif Require Import Spec_Bits Spec_Packed Spec_Tiff Spec_Camera Spec_Known Spec_Meta Spec_File Spec_Tree Spec_TreeMore Spec_Header.
From Verif Require Import P_Base P_Bits P_Tiff3 P_Tiff5 P_Packed2 P_Packed3 P_File1 P_File2 P_File3 P_File5 P_Tree1 P_Tree2 P_Tree3 P_Tree6 P_Tree13.
From Verif Require Props_Packed.
Import ListNotations.
Local Open Scope Z_scope.

Lemma be32_at : forall buf pos v, at_pos buf pos (bytes_of true 4 v) -> 0 <= v < 4294967296 -> BEu32 buf pos = Ok v.
Proof. exact (ru32_at true). Qed.
Lemma block_length : forall b, zlen (block_bytes b) = 8 + zlen (snd b).
Proof. intros b. unfold block_bytes. rewrite !zlen_app, !zlen_bytes_of. lia. Qed.
Lemma nth_mid : forall (a b c : list Z) k, 0 <= k < zlen b -> nth (Z.to_nat (zlen a + k)) (a ++ b ++ c) 0 = nth (Z.to_nat k) b 0.
Proof. intros a b c k Hk. unfold zlen in *. rewrite app_nth2 by lia. replace (Z.to_nat (Z.of_nat (length a) + k) - length a)%nat with (Z.to_nat k) by lia. apply app_nth1. lia. Qed.
Lemma two_mid : forall (a b c : list Z) k, 0 <= k -> k + 1 < zlen b -> two_bytes (a ++ b ++ c) (zlen a + k) = two_bytes b k.
Proof. intros a b c k H0 Hk. unfold two_bytes. rewrite <- Z.add_assoc, !nth_mid by lia. reflexivity. Qed.

(** What a block says *)
Definition said (m : mrw_info) (pos : Z) (b : block) : mrw_info :=
  let c := snd b in
  if fst b =? size_tag then mkmrw (two_bytes c 10) (two_bytes c 8) (nth 16 c 0 =? 12) (m_wb m) (m_tiffpos m)
  else if fst b =? white_tag then mkmrw (m_width m) (m_height m) (m_packed m) (V4 (two_bytes c 4) (two_bytes c 6) (two_bytes c 8) (two_bytes c 10)) (m_tiffpos m)
  else if fst b =? directory_tag then mkmrw (m_width m) (m_height m) (m_packed m) (m_wb m) (pos + 8)
  else m.
Fixpoint all_said (m : mrw_info) (pos : Z) (bs : list block) : mrw_info :=
  match bs with [] => m | b :: t => all_said (said m pos b) (pos + zlen (block_bytes b)) t end.
Definition long_enough (b : block) : Prop := (fst b = size_tag -> 17 <= zlen (snd b)) /\ (fst b = white_tag -> 12 <= zlen (snd b)).

Section Any.
Context {M : Mode}.
Lemma block_read : forall pre b post m, bytes (pre ++ block_bytes b ++ post) -> long_enough b ->
  mrw_block (pre ++ block_bytes b ++ post) (zlen pre) (fst b) m = Ok (said m (zlen pre) b).
Proof.
  intros pre [tag c] post m Hb [L1 L2]. unfold mrw_block, said. cbn [fst snd] in *. change 0x505244 with size_tag. change 0x574247 with white_tag. change 0x545457 with directory_tag.
  assert (E : pre ++ block_bytes (tag, c) ++ post = (pre ++ bytes_of true 4 tag ++ bytes_of true 4 (Z.of_nat (length c))) ++ c ++ post) by (unfold block_bytes; cbn [fst snd]; rewrite <- !app_assoc; reflexivity).
  rewrite E in *. set (a := pre ++ bytes_of true 4 tag ++ bytes_of true 4 (Z.of_nat (length c))) in *.
  assert (La : zlen a = zlen pre + 8) by (unfold a; rewrite !zlen_app, !zlen_bytes_of; lia). pose proof (zlen_nonneg pre) as P0. pose proof (zlen_nonneg post) as P1.
  assert (Lt : zlen (a ++ c ++ post) = zlen a + zlen c + zlen post) by (rewrite !zlen_app; lia).
  assert (R : forall k, 0 <= k -> k + 1 < zlen c -> BEu16 (a ++ c ++ post) (zlen pre + 8 + k) = Ok (two_bytes c k)).
  { intros k K0 K1. destruct (be_two (a ++ c ++ post) (zlen pre + 8 + k) Hb ltac:(lia)) as [Q _]; [change (Z.of_nat (length (a ++ c ++ post))) with (zlen (a ++ c ++ post)); lia|]. rewrite Q. f_equal. rewrite <- La. apply two_mid; lia. }
  destruct (tag =? size_tag) eqn:T1.
  - assert (17 <= zlen c) by (apply L1; lia). replace (zlen pre + 16) with (zlen pre + 8 + 8) by lia. rewrite (R 8) by lia. cbn [bind]. replace (zlen pre + 18) with (zlen pre + 8 + 10) by lia. rewrite (R 10) by lia. cbn [bind].
    replace (zlen pre + 24) with (zlen a + 16) by lia. rewrite (get_ok (a ++ c ++ post)) by lia. cbn [bind]. unfold znth. rewrite nth_mid by lia. reflexivity.
  - destruct (tag =? white_tag) eqn:T2; [|destruct (tag =? directory_tag); reflexivity]. assert (12 <= zlen c) by (apply L2; lia).
    replace (zlen pre + 12) with (zlen pre + 8 + 4) by lia. rewrite (R 4) by lia. cbn [bind]. replace (zlen pre + 14) with (zlen pre + 8 + 6) by lia. rewrite (R 6) by lia. cbn [bind].
    replace (zlen pre + 16) with (zlen pre + 8 + 8) by lia. rewrite (R 8) by lia. cbn [bind]. replace (zlen pre + 18) with (zlen pre + 8 + 10) by lia. rewrite (R 10) by lia. reflexivity.
Qed.
Lemma scan_read : forall bs pre post m fuel, bytes (pre ++ flat_map block_bytes bs ++ post) -> Forall long_enough bs -> Forall (fun b => 0 <= fst b < 2 ^ 32) bs ->
  zlen (pre ++ flat_map block_bytes bs ++ post) < 2 ^ 32 -> (exists before b, bs = before ++ [b] /\ 12 < zlen (snd b)) \/ bs = [] -> (length bs < fuel)%nat ->
  mrw_scan fuel (pre ++ flat_map block_bytes bs ++ post) (zlen pre + zlen (flat_map block_bytes bs)) (zlen pre) m = Ok (all_said m (zlen pre) bs).
Proof.
  induction bs as [|b bs IH]; intros pre post m fuel Hb Hl Ht Hs Hlast Hf; (destruct fuel as [|fuel]; [cbn in Hf; lia|]); cbn [mrw_scan flat_map all_said] in *.
  - rewrite zlen_nil. replace (zlen pre + 20 <? zlen pre + 0) with false by lia. reflexivity.
  - inversion Hl as [|? ? Hl1 Hl2]; subst. inversion Ht as [|? ? Ht1 Ht2]; subst. rewrite <- app_assoc in *.
    assert (Hlast' : (exists before b, bs = before ++ [b] /\ 12 < zlen (snd b)) \/ bs = []).
    { destruct Hlast as [(before & x & E & L)|E]; [|discriminate E]. destruct before as [|y before]; cbn [app] in E; injection E; intros; subst; [right; reflexivity|left; eauto]. }
    assert (Lb : 20 < zlen (block_bytes b ++ flat_map block_bytes bs)).
    { destruct Hlast as [(before & x & E & L)|E]; [|discriminate E]. change (block_bytes b ++ flat_map block_bytes bs) with (flat_map block_bytes (b :: bs)). rewrite E, flat_map_app, zlen_app. cbn [flat_map]. rewrite app_nil_r, block_length. pose proof (zlen_nonneg (flat_map block_bytes before)). lia. }
    replace (zlen pre + 20 <? zlen pre + zlen (block_bytes b ++ flat_map block_bytes bs)) with true by lia.
    pose proof (zlen_nonneg pre) as P0. pose proof (zlen_nonneg (flat_map block_bytes bs)) as P1. pose proof (zlen_nonneg post) as P2. pose proof (zlen_nonneg (snd b)) as P3.
    assert (Lt : zlen (pre ++ block_bytes b ++ flat_map block_bytes bs ++ post) = zlen pre + (8 + zlen (snd b)) + zlen (flat_map block_bytes bs) + zlen post) by (rewrite !zlen_app, block_length; lia).
    rewrite (be32_at _ (zlen pre) (fst b)); [|exists pre, (bytes_of true 4 (Z.of_nat (length (snd b))) ++ snd b ++ flat_map block_bytes bs ++ post); split; [unfold block_bytes; rewrite <- !app_assoc; reflexivity|reflexivity]|lia].
    cbn [bind]. rewrite (be32_at _ (zlen pre + 4) (zlen (snd b)));
      [|exists (pre ++ bytes_of true 4 (fst b)), (snd b ++ flat_map block_bytes bs ++ post); split; [unfold block_bytes, zlen; rewrite <- !app_assoc; reflexivity|rewrite zlen_app, zlen_bytes_of; lia]|lia].
    cbn [bind]. rewrite block_read by assumption. cbn [bind]. unfold u32add. rewrite arith_u_ok by lia. cbn [bind].
    replace (zlen pre + (zlen (snd b) + 8)) with (zlen (pre ++ block_bytes b)) by (rewrite zlen_app, block_length; lia).
    replace (zlen pre + zlen (block_bytes b ++ flat_map block_bytes bs)) with (zlen (pre ++ block_bytes b) + zlen (flat_map block_bytes bs)) by (rewrite !zlen_app; lia).
    rewrite <- (zlen_app pre (block_bytes b)). rewrite app_assoc in *. apply IH; try assumption. cbn in Hf. lia.
Qed.
End Any.

Lemma size_kept : forall bs m pos, ~ In size_tag (map fst bs) -> m_width (all_said m pos bs) = m_width m /\ m_height (all_said m pos bs) = m_height m /\ m_packed (all_said m pos bs) = m_packed m.
Proof.
  induction bs as [|b bs IH]; intros m pos H; cbn [all_said]; [auto|]. cbn [map In] in H. destruct (IH (said m pos b) (pos + zlen (block_bytes b)) ltac:(tauto)) as (-> & -> & ->).
  unfold said. replace (fst b =? size_tag) with false by (symmetry; apply Z.eqb_neq; intros E; apply H; left; congruence). destruct (fst b =? white_tag); [auto|]. destruct (fst b =? directory_tag); auto.
Qed.
Lemma size_read : forall bs m pos c, NoDup (map fst bs) -> In (size_tag, c) bs -> m_width (all_said m pos bs) = two_bytes c 10 /\ m_height (all_said m pos bs) = two_bytes c 8 /\ m_packed (all_said m pos bs) = (nth 16 c 0 =? 12).
Proof.
  induction bs as [|b bs IH]; intros m pos c Hn Hi; [destruct Hi|]. cbn [map all_said] in *. inversion Hn as [|? ? N1 N2]; subst. destruct Hi as [->|Hi]; [|apply IH; assumption].
  cbn [fst] in N1. destruct (size_kept bs (said m pos (size_tag, c)) (pos + zlen (block_bytes (size_tag, c))) N1) as (-> & -> & ->). auto.
Qed.
Lemma white_kept : forall bs m pos, ~ In white_tag (map fst bs) -> m_wb (all_said m pos bs) = m_wb m.
Proof.
  induction bs as [|b bs IH]; intros m pos H; cbn [all_said]; [auto|]. cbn [map In] in H. rewrite IH by tauto.
  unfold said. destruct (fst b =? size_tag); [reflexivity|]. replace (fst b =? white_tag) with false by (symmetry; apply Z.eqb_neq; intros E; apply H; left; congruence). destruct (fst b =? directory_tag); auto.
Qed.
Lemma white_read : forall bs m pos c, NoDup (map fst bs) -> In (white_tag, c) bs -> m_wb (all_said m pos bs) = V4 (two_bytes c 4) (two_bytes c 6) (two_bytes c 8) (two_bytes c 10).
Proof.
  induction bs as [|b bs IH]; intros m pos c Hn Hi; [destruct Hi|]. cbn [map all_said] in *. inversion Hn as [|? ? N1 N2]; subst. destruct Hi as [->|Hi]; [|apply IH; assumption].
  cbn [fst] in N1. rewrite white_kept by exact N1. reflexivity.
Qed.
Lemma directory_kept : forall bs m pos, ~ In directory_tag (map fst bs) -> m_tiffpos (all_said m pos bs) = m_tiffpos m.
Proof.
  induction bs as [|b bs IH]; intros m pos H; cbn [all_said]; [auto|]. cbn [map In] in H. rewrite IH by tauto.
  unfold said. destruct (fst b =? size_tag); [reflexivity|]. destruct (fst b =? white_tag); [reflexivity|]. replace (fst b =? directory_tag) with false by (symmetry; apply Z.eqb_neq; intros E; apply H; left; congruence). auto.
Qed.
Lemma directory_read : forall bs m pos c, NoDup (map fst bs) -> In (directory_tag, c) bs -> exists before after, bs = before ++ (directory_tag, c) :: after /\
  m_tiffpos (all_said m pos bs) = pos + zlen (flat_map block_bytes before) + 8.
Proof.
  induction bs as [|b bs IH]; intros m pos c Hn Hi; [destruct Hi|]. cbn [map all_said] in *. inversion Hn as [|? ? N1 N2]; subst. destruct Hi as [->|Hi].
  - exists [], bs. split; [reflexivity|]. cbn [fst] in N1. rewrite directory_kept by exact N1. cbn. lia.
  - destruct (IH (said m pos b) (pos + zlen (block_bytes b)) c N2 Hi) as (before & after & E1 & E2). exists (b :: before), after. split; [rewrite E1; reflexivity|]. rewrite E2. cbn [flat_map]. rewrite zlen_app. lia.
Qed.
Lemma slice_after : forall (a b : list Z) k, k = zlen a -> slice_from (a ++ b) k = Ok b.
Proof. intros a b k ->. rewrite slice_from_ok by (rewrite zlen_app; pose proof (zlen_nonneg a); pose proof (zlen_nonneg b); lia). f_equal. unfold zlen. rewrite Nat2Z.id, skipn_app, skipn_all, Nat.sub_diag. reflexivity. Qed.

Section Whole.
Context {M : Mode}.
Lemma minolta_opened : forall l blocks data w h packed a b c d t make model o cam,
  minolta_blocks blocks w h packed (a, b, c, d) t -> last_long blocks -> bytes (minolta_file blocks data) -> Z.of_nat (length (minolta_file blocks data)) + 16 < 2 ^ 32 ->
  names (visible [t]) make model -> has_orientation (visible [t]) o -> find_camera l make model "" = Some cam ->
  let start := 8 + zlen (flat_map block_bytes blocks) in
  exists pos i, get_decoder l (buffer_new (minolta_file blocks data)) (zlen (minolta_file blocks data)) = Ok (DMrw (mkmrw w h packed (V4 a b c d) pos, start, i)) /\
    check_supported l i = Ok (set_orientation o cam) /\ slice_from (buffer_new (minolta_file blocks data)) start = Ok (data ++ zeros 16) /\
    0 <= w < 2 ^ 16 /\ 0 <= h < 2 ^ 16 /\ Forall (fun v => 0 <= v < 2 ^ 16) [a; b; c; d].
Proof.
  intros l blocks data w h packed a b c d t make model o cam [[Hn Ht] (c1 & S1 & S2 & S3 & S4 & S5) (c2 & W1 & W2 & W3) (c3 & next & D1 & D2)] Hlast Hb Hs Hm Ho Hc start.
  set (body := flat_map block_bytes blocks) in *. set (pre := [0; 77; 82; 77] ++ bytes_of true 4 (Z.of_nat (length body))).
  assert (Lp : zlen pre = 8) by (unfold pre; rewrite zlen_app, zlen_bytes_of; reflexivity).
  assert (Eb : buffer_new (minolta_file blocks data) = pre ++ body ++ data ++ zeros 16) by (unfold buffer_new, minolta_file, pre, body; rewrite <- !app_assoc; reflexivity).
  assert (Bz : bytes (pre ++ body ++ data ++ zeros 16)) by (rewrite <- Eb; apply Forall_app; split; [exact Hb|repeat constructor; unfold byte; lia]).
  assert (Lz : zlen (pre ++ body ++ data ++ zeros 16) < 4294967296) by (rewrite <- Eb; unfold buffer_new; rewrite zlen_app; change (zlen (zeros 16)) with 16; unfold zlen; lia).
  assert (Bc : forall tag c, In (tag, c) blocks -> bytes c).
  { intros tag c0 Hi. apply Forall_app in Bz. destruct Bz as [_ Bz]. apply Forall_app in Bz. destruct Bz as [Bz _]. apply Forall_forall. intros x Hx. apply (proj1 (Forall_forall _ _) Bz). unfold body. apply in_flat_map. exists (tag, c0). split; [exact Hi|]. unfold block_bytes. apply in_or_app. right. apply in_or_app. right. exact Hx. }
  assert (Len : Forall long_enough blocks).
  { assert (U : forall tag x y, In (tag, x) blocks -> In (tag, y) blocks -> x = y).
    { clear - Hn. induction blocks as [|[g z] bs IH]; intros tag x y H1 H2; [destruct H1|]. cbn [map fst] in Hn. inversion Hn as [|? ? N1 N2]; subst.
      destruct H1 as [H1|H1], H2 as [H2|H2]; [congruence|exfalso; apply N1; replace g with tag by congruence; apply (in_map fst _ _ H2)|exfalso; apply N1; replace g with tag by congruence; apply (in_map fst _ _ H1)|eapply IH; eassumption]. }
    apply Forall_forall. intros [tag x] Hx. split; cbn [fst snd]; intros ->; [rewrite (U _ _ _ Hx S1)|rewrite (U _ _ _ Hx W1)]; unfold zlen; assumption. }
  pose proof (zlen_nonneg body) as P0. pose proof (zlen_nonneg data) as P1.
  assert (Lt : zlen (pre ++ body ++ data ++ zeros 16) = 8 + zlen body + zlen data + 16) by (rewrite !zlen_app, Lp; change (zlen (zeros 16)) with 16; lia).
  assert (Fuel : (length blocks < S (length (pre ++ body ++ data ++ zeros 16)))%nat).
  { rewrite !app_length. assert (length blocks <= length body)%nat; [|lia]. unfold body. clear. induction blocks as [|b bs IH]; [cbn; lia|]. cbn [flat_map length]. rewrite app_length. pose proof (block_length b). pose proof (zlen_nonneg (snd b)). unfold zlen in *. lia. }
  pose proof (scan_read blocks pre (data ++ zeros 16) mrw_none (S (length (pre ++ body ++ data ++ zeros 16))) Bz Len Ht Lz) as Sc. fold body in Sc. rewrite Lp in Sc. specialize (Sc ltac:(left; exact Hlast) Fuel).
  destruct (size_read blocks mrw_none 8 c1 Hn S1) as (V1 & V2 & V3). pose proof (white_read blocks mrw_none 8 c2 Hn W1) as V4'. destruct (directory_read blocks mrw_none 8 c3 Hn D1) as (before & after & Ebl & V5).
  remember (all_said mrw_none 8 blocks) as m eqn:Em. clear Em. destruct m as [mw mh mp mb mt]. cbn [m_width m_height m_packed m_wb m_tiffpos] in *. rewrite S4 in V1. rewrite S3 in V2. assert (mp = packed) as -> by (rewrite V3; destruct packed; destruct (nth 16 c1 0 =? 12) eqn:Q; try reflexivity; [assert (nth 16 c1 0 = 12) by (apply S5; reflexivity); lia|assert (false = true) by (apply S5; lia); congruence]).
  assert (Hsub : slice_from (pre ++ body ++ data ++ zeros 16) mt = Ok ((c3 ++ flat_map block_bytes after ++ data) ++ zeros 16)).
  { assert (Q : pre ++ body ++ data ++ zeros 16 = (pre ++ flat_map block_bytes before ++ bytes_of true 4 directory_tag ++ bytes_of true 4 (Z.of_nat (length c3))) ++ (c3 ++ flat_map block_bytes after ++ data) ++ zeros 16).
    { replace body with (flat_map block_bytes before ++ (bytes_of true 4 directory_tag ++ bytes_of true 4 (Z.of_nat (length c3)) ++ c3) ++ flat_map block_bytes after) by (unfold body; rewrite Ebl, flat_map_app; reflexivity). rewrite <- !app_assoc. reflexivity. }
    rewrite Q. apply slice_after. rewrite V5, !zlen_app, !zlen_bytes_of, Lp. lia. }
  destruct (written_read 10 true (c3 ++ flat_map block_bytes after ++ data) (zeros 16) 8 next t eq_refl) as (i & I1 & _ & I3).
  { pose proof (slice_from_inv _ _ _ Hsub) as Q. assert (zlen ((c3 ++ flat_map block_bytes after ++ data) ++ zeros 16) <= zlen (pre ++ body ++ data ++ zeros 16)); [|lia].
    destruct Q as [Q1 Q2]. rewrite Q2. unfold zlen. rewrite skipn_length. lia. }
  { apply written_app. exact D2. }
  exists mt, i. rewrite Eb. split.
  - unfold get_decoder, is_mrw. rewrite (be32_at _ 0 0x004D524D); [|exists [], (bytes_of true 4 (Z.of_nat (length body)) ++ body ++ data ++ zeros 16); split; [unfold pre; rewrite <- !app_assoc; reflexivity|reflexivity]|lia].
    cbn [bind]. change (0x004D524D =? 0x004D524D) with true. cbv iota. unfold mrw_new.
    rewrite (be32_at _ 4 (zlen body)); [|exists [0; 77; 82; 77], (body ++ data ++ zeros 16); split; [unfold pre, zlen; rewrite <- !app_assoc; reflexivity|reflexivity]|lia].
    cbn [bind]. unfold u32add. rewrite arith_u_ok by (change (2 ^ 32) with 4294967296; lia). cbn [bind]. replace (zlen body + 8) with (8 + zlen body) by lia. rewrite Sc. cbn [bind m_tiffpos]. rewrite Hsub. cbn [bind].
    unfold ifd_new. change BIG_ENDIAN with true. rewrite I1. cbn [bind]. rewrite V1, V2, V4'. injection W3 as -> -> -> ->. reflexivity.
  - split; [unfold check_supported; eapply see_camera; [apply tree_sees; exact I3|eassumption..]|]. split; [|split; [|split]].
    + rewrite app_assoc. apply slice_after. rewrite zlen_app, Lp. reflexivity.
    + rewrite <- S4. apply (be_two c1 10); [eapply Bc; exact S1|lia|lia].
    + rewrite <- S3. apply (be_two c1 8); [eapply Bc; exact S1|lia|lia].
    + injection W3 as -> -> -> ->. repeat (apply Forall_cons; [apply be_two; [eapply Bc; exact W1|lia|lia]|]). constructor.
Qed.
Context (powf : f32 -> f32 -> f32) (parse_f32 : string -> option f32).
Variables (db : list table) (l : loader).
Hypothesis Hl : loader_new db = Ok l.
Lemma minolta_file_ok : forall blocks data w h packed a b c d t make model o cam samples rest,
  minolta_blocks blocks w h packed (a, b, c, d) t -> last_long blocks -> bytes (minolta_file blocks data) -> Z.of_nat (length (minolta_file blocks data)) + 16 < 2 ^ 32 ->
  names (visible [t]) make model -> has_orientation (visible [t]) o -> find_camera l make model "" = Some cam -> no_black_area cam ->
  0 < w -> Z.of_nat (length samples) = w * h -> Forall (Spec_Packed.fits 12) samples ->
  (if packed then Z.even w = true /\ data = pack 12 samples ++ rest else data = pack16 true samples ++ rest) ->
  exists img, lib_decode powf parse_f32 db (minolta_file blocks data) = Ok img /\ shows img cam o w h /\ i_data img = samples /\ i_blacks img = c_blacks cam /\
    (if find_hint cam "swapped_wb" then balance img c a b else balance img a b d).
Proof.
  intros blocks data w h packed a b c d t make model o cam samples rest Hm Hlast Hb Hs Hn Ho Hc N Hw Ls Hf Hd.
  destruct (minolta_opened l blocks data w h packed a b c d t make model o cam Hm Hlast Hb Hs Hn Ho Hc) as (pos & i & G & C & Sd & Rw & Rh & Rl).
  set (start := 8 + zlen (flat_map block_bytes blocks)) in *.
  destruct (finished cam o w h (if find_hint cam "swapped_wb" then V4 (f32_of c) (f32_of a) (f32_of b) NAN else V4 (f32_of a) (f32_of b) (f32_of d) NAN) samples N) as (img & I1 & I2 & I3 & I4 & I5).
  assert (Br : bytes (data ++ zeros 16)).
  { apply Forall_app. split; [|repeat constructor; unfold byte; lia]. unfold minolta_file in Hb. apply Forall_app in Hb. destruct Hb as [_ Hb]. apply Forall_app in Hb. destruct Hb as [_ Hb]. apply Forall_app in Hb. apply Hb. }
  exists img. split; [|split; [exact I2|split; [exact I3|split; [exact I4|]]]].
  - eapply lib_decodes; [exact Hl|]. unfold decode. rewrite G. cbn [bind decoder_image mrw_image]. rewrite C. cbn [bind]. rewrite Sd. cbn [bind m_packed m_width m_height m_wb e0 e1 e2 e3]. change (find_hint (set_orientation o cam)) with (find_hint cam).
    destruct packed.
    + destruct Hd as [He ->]. rewrite <- app_assoc in *. apply Forall_app in Br. rewrite Props_Packed.C06_12be; [exact I1|lia|apply even_mod; exact He|lia|exact Ls|exact Hf|exact (proj2 Br)].
    + subst data. rewrite <- app_assoc in *. apply Forall_app in Br. rewrite Props_Packed.C06_12be_in_16; [exact I1|lia|lia|exact Ls|exact Hf|exact (proj2 Br)].
  - assert (Q : Forall (fun v => nearest (f32_of v) (IZR v)) [a; b; c; d]) by (eapply Forall_impl; [|exact Rl]; intros v Hv; cbv beta in Hv; apply number_near; change (2 ^ 32) with 4294967296; change (2 ^ 16) with 65536 in Hv; lia).
    inversion Q as [|? ? Qa Q1]; subst. inversion Q1 as [|? ? Qb Q2]; subst. inversion Q2 as [|? ? Qc Q3]; subst. inversion Q3 as [|? ? Qd Q4]; subst.
    destruct (find_hint cam "swapped_wb"); unfold balance; rewrite I5; cbn [e0 e1 e2 e3]; auto.
Qed.
End Whole.
