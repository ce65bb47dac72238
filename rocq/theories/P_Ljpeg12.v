(** Proofs about lossless JPEG: whole files with sampling factors and other
    predictors. *)
From Coq Require Import String ZArith List Bool Lia ZifyBool ZifyNat.
From Verif Require Import Base Bytes Pumps ByteStream Threads Packed Huffman Ljpeg Spec_Bits Spec_Pump Spec_Stream Spec_Huffman Spec_Ljpeg
  P_Base P_Bits P_Pumps P_Huff4 P_Huff5 P_Huff6 P_Ljpeg1 P_Ljpeg2 P_Ljpeg3 P_Ljpeg4 P_Ljpeg5 P_Ljpeg9 P_Ljpeg10.
Import ListNotations.
Local Open Scope Z_scope.
Ltac Zify.zify_post_hook ::= Z.div_mod_to_equations.

(** ** SOF *)
Definition ccomp (t : Z) (c : Z * (Z * Z)) : component := mkcomp (fst c) t (fst (snd c)) (snd (snd c)).
Definition scomp0 (c : Z * (Z * Z)) : component := ccomp 0 c.
Definition ok_factors (c : Z * (Z * Z)) : Prop := 0 <= fst (snd c) <= 15 /\ 0 <= snd (snd c) <= 15.
Lemma factors : forall a b, 0 <= a <= 15 -> 0 <= b <= 15 -> Z.shiftr (16 * a + b) 4 = a /\ Z.land (16 * a + b) 0xf = b.
Proof.
  intros a b Ha Hb. split.
  - rewrite Z.shiftr_div_pow2 by lia. change (2 ^ 4) with 16. lia.
  - change 0xf with (2 ^ 4 - 1). rewrite land_ones_mod by lia. change (2 ^ 4) with 16. lia.
Qed.
Lemma sread_comps : forall buf cs a i pos s, Forall ok_factors cs -> At buf pos (flat_map (fun '(id, (a, b)) => [id; 16 * a + b; 0]) cs ++ s) ->
  rfold (fun (_ : Z) '(cs, pos) =>
        '(id, pos) <- bs_u8 buf pos ;;
        '(subs, pos) <- bs_u8 buf pos ;;
        '(_, pos) <- bs_u8 buf pos ;;
        Ok (cs ++ [mkcomp id 0 (Z.shiftr subs 4) (Z.land subs 0xf)], pos))
      (zrange i (i + zlen cs)) (a, pos) = Ok (a ++ map scomp0 cs, pos + 3 * zlen cs) /\ At buf (pos + 3 * zlen cs) s.
Proof.
  intros buf cs. induction cs as [|[id [x y]] cs IH]; intros a i pos s HF H.
  - change (zlen (@nil (Z * (Z * Z)))) with 0. rewrite zrange_empty by lia. change (3 * 0) with 0. cbn [map rfold]. rewrite Z.add_0_r, app_nil_r. split; [reflexivity|exact H].
  - rewrite zlen_cons. pose proof (zlen_nonneg cs). rewrite zrange_cons by lia. cbn [rfold flat_map app] in *.
    rewrite (At_u8 _ _ _ _ H). cbn [bind]. apply At_next in H. rewrite (At_u8 _ _ _ _ H). cbn [bind]. apply At_next in H.
    rewrite (At_u8 _ _ _ _ H). cbn [bind]. apply At_next in H.
    destruct (Forall_inv HF) as [F1 F2]. cbn [fst snd] in F1, F2. destruct (factors x y F1 F2) as [-> ->].
    change (mkcomp id 0 x y) with (scomp0 (id, (x, y))).
    destruct (IH (a ++ [scomp0 (id, (x, y))]) (i + 1) (pos + 1 + 1 + 1) s (Forall_inv_tail HF) H) as [E1 E2].
    replace (i + (1 + zlen cs)) with (i + 1 + zlen cs) by lia. rewrite E1. rewrite <- app_assoc. cbn [map app].
    replace (pos + 1 + 1 + 1 + 3 * zlen cs) with (pos + 3 * (1 + zlen cs)) in * by lia. split; [reflexivity|exact E2].
Qed.

Lemma sparse_sof_ok : forall buf pos csfix prec w h cs s, prec <= 16 -> 0 <= w < 65536 -> 0 <= h < 65536 -> 1 <= zlen cs <= 4 -> Forall ok_factors cs ->
  At buf pos (u16be (8 + 3 * zlen cs) ++ [prec] ++ u16be h ++ u16be w ++ [zlen cs] ++ flat_map (fun '(id, (a, b)) => [id; 16 * a + b; 0]) cs ++ s) ->
  exists pos', parse_sof (sof_empty csfix) buf pos = Ok (mksof w h (zlen cs) prec (map scomp0 cs) csfix, pos') /\ At buf pos' s.
Proof.
  intros buf pos csfix prec w h cs s HP HW HH HN HF H. unfold parse_sof.
  destruct (At_u16 _ _ (8 + 3 * zlen cs) _ ltac:(lia) H) as [E1 A1]. rewrite E1. cbn [bind app] in *.
  rewrite (At_u8 _ _ _ _ A1). cbn [bind]. apply At_next in A1.
  destruct (At_u16 _ _ _ _ HH A1) as [E2 A2]. rewrite E2. cbn [bind].
  destruct (At_u16 _ _ _ _ HW A2) as [E3 A3]. rewrite E3. cbn [bind app] in *.
  rewrite (At_u8 _ _ _ _ A3). cbn [bind]. apply At_next in A3.
  replace (16 <? prec) with false by lia. replace ((4 <? zlen cs) || (zlen cs <? 1)) with false by lia.
  replace (8 + 3 * zlen cs =? 8 + zlen cs * 3) with true by lia. cbn [negb].
  destruct (sread_comps buf cs [] 0 _ s HF A3) as [E4 A4]. rewrite Z.add_0_l in E4. cbn [s_comps sof_empty s_csfix]. rewrite E4. cbn [bind app].
  eexists. split; [reflexivity|exact A4].
Qed.

(** ** SOS *)
Definition scomp1 (it : (Z * (Z * Z)) * Z) : component := ccomp (snd it) (fst it).
Lemma sset_table_app : forall a id t x y b td, ~ In id (map c_id a) ->
  set_table (a ++ mkcomp id t x y :: b) id td = Some (a ++ mkcomp id td x y :: b).
Proof.
  induction a as [|c a IH]; intros id t x y b td H; cbn [app set_table c_id].
  - rewrite Z.eqb_refl. reflexivity.
  - cbn [map] in H. replace (c_id c =? id) with false by (symmetry; apply Z.eqb_neq; intros E; apply H; left; exact E).
    rewrite IH by (intros C; apply H; right; exact C). reflexivity.
Qed.

Lemma sread_selectors : forall buf csfix its a cs tables i pos s,
  its = combine cs tables -> length cs = length tables -> Forall (fun t => 0 <= t <= 3) tables ->
  NoDup (map fst (map fst a) ++ map fst cs) -> (csfix = true -> map fst cs = zrange i (i + zlen cs)) ->
  At buf pos (flat_map (fun '(id, t) => [id; 16 * t]) (combine (map fst cs) tables) ++ s) ->
  rfold (fun cs '(comps, pos) =>
      '(readcs, pos) <- bs_u8 buf pos ;;
      let cs := if csfix : bool then cs else readcs in
      match set_table comps cs 0 with
      | None => Err "ljpeg: invalid component selector"%string
      | Some _ =>
          '(b, pos) <- bs_u8 buf pos ;;
          let td := Z.shiftr b 4 in
          if 3 <? td then Err "ljpeg: Invalid Huffman table selection"%string
          else match set_table comps cs td with
               | Some comps' => Ok (comps', pos)
               | None => Panic
               end
      end)
    (zrange i (i + zlen cs)) (map scomp1 a ++ map scomp0 cs, pos) = Ok (map scomp1 (a ++ its), pos + 2 * zlen cs) /\ At buf (pos + 2 * zlen cs) s.
Proof.
  intros buf csfix its. induction its as [|[[id [x y]] t] its IH]; intros a cs tables i pos s HI HL HT HD HC H.
  - destruct cs as [|id cs]; [|destruct tables; [discriminate HL|discriminate HI]].
    change (zlen (@nil (Z * (Z * Z)))) with 0. rewrite zrange_empty by lia. cbn [rfold map]. rewrite !app_nil_r. change (2 * 0) with 0. rewrite Z.add_0_r. split; [reflexivity|exact H].
  - destruct cs as [|c' cs]; [discriminate HI|]. destruct tables as [|t' tables]; [discriminate HL|].
    cbn [combine] in HI. injection HI as <- <- HI. rewrite zlen_cons in *. pose proof (zlen_nonneg cs) as NI.
    rewrite zrange_cons by lia. cbn [rfold map combine flat_map app fst] in *.
    rewrite (At_u8 _ _ _ _ H). cbn [bind]. apply At_next in H. cbv zeta.
    assert (ECS : (if csfix then i else id) = id).
    { destruct csfix; [|reflexivity]. specialize (HC eq_refl). rewrite zrange_cons in HC by lia. congruence. }
    rewrite ECS. pose proof (Forall_inv HT) as T3. cbn in T3.
    assert (NI' : ~ In id (map c_id (map scomp1 a))).
    { replace (map c_id (map scomp1 a)) with (map fst (map fst a)) by (rewrite !map_map; reflexivity).
      apply NoDup_remove in HD. destruct HD as [_ HD]. intros C. apply HD. apply in_or_app. left. exact C. }
    change (scomp0 (id, (x, y))) with (mkcomp id 0 x y). rewrite sset_table_app by exact NI'.
    rewrite (At_u8 _ _ _ _ H). cbn [bind]. apply At_next in H.
    assert (ET : Z.shiftr (16 * t) 4 = t) by (rewrite Z.shiftr_div_pow2 by lia; change (2 ^ 4) with 16; lia).
    rewrite ET. replace (3 <? t) with false by lia. rewrite sset_table_app by exact NI'. cbn [bind].
    destruct (IH (a ++ [((id, (x, y)), t)]) cs tables (i + 1) (pos + 1 + 1) s HI ltac:(cbn in HL; lia) (Forall_inv_tail HT)) as [E1 E2].
    + rewrite !map_app, <- app_assoc. exact HD.
    + intros Ct. specialize (HC Ct). rewrite zrange_cons in HC by lia. replace (i + 1 + zlen cs) with (i + (1 + zlen cs)) by lia. congruence.
    + exact H.
    + replace (i + (1 + zlen cs)) with (i + 1 + zlen cs) by lia. rewrite map_app, <- app_assoc in E1. cbn [map app] in E1.
      change (mkcomp id t x y) with (scomp1 ((id, (x, y)), t)). rewrite E1.
      replace (pos + 2 * (1 + zlen cs)) with (pos + 1 + 1 + 2 * zlen cs) by lia. rewrite <- app_assoc. split; [reflexivity|exact E2].
Qed.

Lemma sparse_sos_ok : forall buf pos csfix prec w h cs tables predictor pt s, w <> 0 -> 1 <= zlen cs <= 4 ->
  length cs = length tables -> Forall (fun t => 0 <= t <= 3) tables -> NoDup (map fst cs) -> (csfix = true -> map fst cs = zrange 0 (zlen cs)) -> 0 <= pt < 16 ->
  At buf pos (u16be (6 + 2 * zlen cs) ++ [zlen cs] ++ flat_map (fun '(id, t) => [id; 16 * t]) (combine (map fst cs) tables) ++ [predictor; 0; pt] ++ s) ->
  exists pos', parse_sos (mksof w h (zlen cs) prec (map scomp0 cs) csfix) buf pos
    = Ok (mksof w h (zlen cs) prec (map scomp1 (combine cs tables)) csfix, predictor, pt, pos') /\ At buf pos' s.
Proof.
  intros buf pos csfix prec w h cs tables predictor pt s HW HN HL HT HD HC HP H. unfold parse_sos. cbn [s_width s_cps s_comps s_csfix s_height s_precision].
  replace (w =? 0) with false by lia.
  destruct (At_u16 _ _ (6 + 2 * zlen cs) _ ltac:(lia) H) as [E1 A1]. rewrite E1. cbn [bind app] in *.
  rewrite (At_u8 _ _ _ _ A1). cbn [bind]. apply At_next in A1. rewrite Z.eqb_refl. cbn [negb].
  destruct (sread_selectors buf csfix (combine cs tables) [] cs tables 0 (pos + 2 + 1) (predictor :: 0 :: pt :: s) eq_refl HL HT) as [E2 A2].
  - exact HD.
  - rewrite Z.add_0_l. exact HC.
  - exact A1.
  - rewrite Z.add_0_l in E2. cbn [map app] in E2. cbv zeta in *. rewrite E2. cbn [bind].
    rewrite (At_u8 _ _ _ _ A2). cbn [bind]. apply At_next in A2. rewrite (At_u8 _ _ _ _ A2). cbn [bind]. apply At_next in A2.
    rewrite (At_u8 _ _ _ _ A2). cbn [bind]. apply At_next in A2.
    assert (EP : Z.land pt 0xf = pt) by (change 0xf with (2 ^ 4 - 1); rewrite land_ones_mod by lia; change (2 ^ 4) with 16; lia).
    rewrite EP. eexists. split; [reflexivity|exact A2].
Qed.

(** ** The file *)
Section Sampled.
Context {M : Mode}.
Variables (hs : list hcode) (prec w h : Z) (cs : list (Z * (Z * Z))) (tables : list Z) (predictor pt : Z) (scan : list Z) (dng csfix : bool).
Hypothesis Hhs : (1 <= length hs <= 4)%nat.
Hypothesis Hgood : Forall (good_code debug prec) hs.
Hypothesis Hprec : 12 <= prec <= 16.
Hypothesis Hw : 0 < w < 65536.
Hypothesis Hh : 0 <= h < 65536.
Hypothesis Hpt : 0 <= pt < 16.
Hypothesis Hcs : (1 <= length cs <= 4)%nat.
Hypothesis Hfac : Forall ok_factors cs.
Hypothesis Hdup : NoDup (map fst cs).
Hypothesis Htab : length tables = length cs.
Hypothesis Hsel : Forall (fun t => 0 <= t < Z.of_nat (length hs)) tables.
Hypothesis Hfix : csfix = true -> map fst cs = upto (Z.of_nat (length cs)).
Notation file := (jpeg_sampled hs prec w h cs tables predictor pt scan).

Lemma snew_file : exists lj, ljpeg_new_full file dng csfix = Ok lj /\ lj_buffer lj = scan /\ lj_pred lj = predictor /\ lj_pt lj = pt /\
  (exists comps, lj_sof lj = mksof w h (Z.of_nat (length cs)) prec comps csfix /\ comps = map scomp1 (combine cs tables)) /\
  (forall i, (i < length cs)%nat -> exists t, lj_table lj (Z.of_nat i) = Ok t /\
     let c := nth (Z.to_nat (nth i tables 0)) hs (mkcode [] []) in
     huff_new (0 :: hc_counts c) (padded (hc_syms c)) prec dng = Ok t).
Proof.
  pose proof Hcs as Hids. rewrite <- (map_length fst) in Hids. pose proof Htab as Htab'. rewrite <- (map_length fst cs) in Htab'.
  unfold ljpeg_new_full.
  assert (A0 : At file 0 file) by (exists []; split; reflexivity).
  unfold jpeg_sampled in A0 at 2. cbn [app] in A0.
  destruct (At_marker _ _ 216 _ ltac:(discriminate) ltac:(discriminate) A0) as [_ [E0 A1]]. rewrite E0. cbn [bind].
  change (216 =? 0xd8) with true. cbn [negb].
  unfold dht_segment in A1. rewrite <- !app_assoc in A1. cbn [app] in A1.
  assert (LF : (5 < length file)%nat).
  { unfold jpeg_sampled, sof_sampled. rewrite !app_length. cbn [length app]. lia. }
  destruct (length file) as [|[|[|[|[|f]]]]] eqn:EF; try lia. cbn [marker_loop].
  destruct (At_marker _ _ 196 _ ltac:(discriminate) ltac:(discriminate) A1) as [E1 [_ A2]]. rewrite E1. cbn [bind].
  change (196 =? 0xc3) with false. change (196 =? 0xc4) with true. cbn iota.
  (* DHT *)
  pose proof (dht_len hs prec (map fst cs) tables csfix Hhs Hgood Hids Htab') as DL. pose proof (zlen_nonneg (dht_tables hs)) as DN. fold (zlen (dht_tables hs)) in A2.
  destruct (At_u16 _ _ (2 + zlen (dht_tables hs)) _ ltac:(lia) A2) as [E2 A3].
  unfold parse_dht. rewrite E2. cbn [bind]. rewrite usub_ok by lia. cbn [bind].
  replace (2 + zlen (dht_tables hs) - 2) with (zlen (dht_tables hs)) by lia.
  destruct (parse_tables_ok hs [] (S (length file)) file (0 + 2 + 2 + 2) (zlen (dht_tables hs)) 
     (sof_sampled prec w h cs ++ sos_segment (map fst cs) tables predictor pt ++ scan) (good_0 hs prec (map fst cs) tables csfix Hhs Hgood Hids Htab')) as [E3 A4].
  { cbn [length]. lia. } { lia. } { reflexivity. } { exact A3. }
  change (read_tables []) with no_dhts in E3. rewrite E3. cbn [bind app].
  (* SOF *)
  unfold sof_sampled in A4. rewrite <- !app_assoc in A4. cbn [app] in A4.
  destruct (At_marker _ _ 195 _ ltac:(discriminate) ltac:(discriminate) A4) as [E4 [_ A5]]. rewrite E4. cbn [bind].
  change (195 =? 0xc3) with true. cbn iota. fold (zlen cs) in A5.
  destruct (sparse_sof_ok file _ csfix prec w h cs (sos_segment (map fst cs) tables predictor pt ++ scan) ltac:(lia) ltac:(lia) Hh ltac:(unfold zlen; lia) Hfac A5) as [pos1 [E5 A6]].
  rewrite E5. cbn [bind s_precision]. replace ((16 <? prec) || (prec <? 12)) with false by lia.
  (* SOS *)
  unfold sos_segment in A6. rewrite <- !app_assoc in A6. cbn [app] in A6.
  destruct (At_marker _ _ 218 _ ltac:(discriminate) ltac:(discriminate) A6) as [E6 [_ A7]]. rewrite E6. cbn [bind].
  change (218 =? 0xc3) with false. change (218 =? 0xc4) with false. change (218 =? 0xda) with true. cbn iota. rewrite map_length in A7. fold (zlen cs) in A7.
  destruct (sparse_sos_ok file (pos1 + 2) csfix prec w h cs tables predictor pt scan) as [pos2 [E7 A8]].
  { lia. } { unfold zlen; lia. } { lia. }
  { eapply Forall_impl; [|exact Hsel]. cbn. intros; lia. } { exact Hdup. }
  { intros Ct. specialize (Hfix Ct). rewrite upto_zrange in Hfix. exact Hfix. } { exact Hpt. } { exact A7. }
  rewrite E7. cbn [bind]. destruct (new_tables hs prec (map fst cs) tables [] dng csfix Hhs Hgood Hprec Hids Htab') as [ts [Lts [Gts Ets]]].
  cbn [read_tables d_init d_bits d_vals s_precision]. rewrite Ets. cbn [bind].
  destruct (At_bound _ _ _ A8) as [B1 B2]. pose proof (zlen_nonneg scan). rewrite slice_from_ok by lia. cbn [bind].
  eexists. split; [reflexivity|]. cbn [lj_buffer lj_sof lj_pred lj_pt].
  assert (ES : skipn (Z.to_nat pos2) file = scan).
  { destruct A8 as [pre [E P]]. rewrite E, P. unfold zlen. rewrite Nat2Z.id, skipn_app, skipn_all, Nat.sub_diag. reflexivity. }
  split; [exact ES|]. split; [reflexivity|]. split; [reflexivity|]. split.
  { eexists. split; [reflexivity|reflexivity]. }
  intros i Hi. set (tt := nth i tables 0).
  assert (Htt : 0 <= tt < Z.of_nat (length hs)).
  { apply (proj1 (Forall_forall _ _) Hsel). apply nth_In. lia. }
  exists (nth (Z.to_nat tt) ts (huff_empty 0)). split; [|apply Gts; lia].
  unfold lj_table. cbn [lj_sof s_comps lj_dhts].
  assert (Lc : length (combine cs tables) = length cs) by (rewrite combine_length; lia).
  assert (EG : get (combine cs tables) (Z.of_nat i) = Ok (nth i cs (0, (0, 0)), tt)).
  { unfold get, zlen. rewrite Lc. replace ((0 <=? Z.of_nat i) && (Z.of_nat i <? Z.of_nat (length cs))) with true by lia.
    rewrite Nat2Z.id. rewrite (nth_error_nth' _ ((0, (0, 0)), 0)) by lia. rewrite combine_nth by lia. reflexivity. }
  rewrite (get_map scomp1 _ _ _ EG). cbn [bind scomp1 ccomp fst snd c_tbl].
  unfold get, zlen. rewrite app_length. unfold empty_tables. rewrite repeat_length.
  replace ((0 <=? tt) && (tt <? Z.of_nat (length ts + (4 - length hs)))) with true by lia.
  rewrite nth_error_app1 by lia. rewrite (nth_error_nth' ts (huff_empty 0)) by lia. reflexivity.
Qed.
End Sampled.
