(** Proofs about lossless JPEG: whole files. *)
From Coq Require Import String ZArith List Bool Lia ZifyBool ZifyNat.
From Verif Require Import Base Bytes Pumps ByteStream Threads Packed Huffman Ljpeg Spec_Bits Spec_Pump Spec_Stream Spec_Huffman Spec_Ljpeg
  P_Base P_Bits P_Pumps P_Huff4 P_Huff5 P_Huff6 P_Ljpeg1 P_Ljpeg2 P_Ljpeg3 P_Ljpeg4.
Import ListNotations.
Local Open Scope Z_scope.
Ltac Zify.zify_post_hook ::= Z.div_mod_to_equations.

(** ** SOF *)
Definition comp0 (id : Z) : component := mkcomp id 0 1 1.
Lemma read_comps : forall buf ids a i pos s, At buf pos (flat_map (fun id => [id; 17; 0]) ids ++ s) ->
  rfold (fun (_ : Z) '(cs, pos) =>
        '(id, pos) <- bs_u8 buf pos ;;
        '(subs, pos) <- bs_u8 buf pos ;;
        '(_, pos) <- bs_u8 buf pos ;;
        Ok (cs ++ [mkcomp id 0 (Z.shiftr subs 4) (Z.land subs 0xf)], pos))
      (zrange i (i + zlen ids)) (a, pos) = Ok (a ++ map comp0 ids, pos + 3 * zlen ids) /\ At buf (pos + 3 * zlen ids) s.
Proof.
  intros buf ids. induction ids as [|id ids IH]; intros a i pos s H.
  - change (zlen (@nil Z)) with 0. rewrite zrange_empty by lia. change (3 * 0) with 0. cbn [map rfold]. rewrite Z.add_0_r, app_nil_r. split; [reflexivity|exact H].
  - rewrite zlen_cons. pose proof (zlen_nonneg ids). rewrite zrange_cons by lia. cbn [rfold flat_map app] in *.
    rewrite (At_u8 _ _ _ _ H). cbn [bind]. apply At_next in H. rewrite (At_u8 _ _ _ _ H). cbn [bind]. apply At_next in H.
    rewrite (At_u8 _ _ _ _ H). cbn [bind]. apply At_next in H.
    change (mkcomp id 0 (Z.shiftr 17 4) (Z.land 17 0xf)) with (comp0 id).
    destruct (IH (a ++ [comp0 id]) (i + 1) (pos + 1 + 1 + 1) s H) as [E1 E2].
    replace (i + (1 + zlen ids)) with (i + 1 + zlen ids) by lia. rewrite E1. rewrite <- app_assoc. cbn [map app].
    replace (pos + 1 + 1 + 1 + 3 * zlen ids) with (pos + 3 * (1 + zlen ids)) in * by lia. split; [reflexivity|exact E2].
Qed.

Lemma parse_sof_ok : forall buf pos csfix prec w h ids s, prec <= 16 -> 0 <= w < 65536 -> 0 <= h < 65536 -> 1 <= zlen ids <= 4 ->
  At buf pos (u16be (8 + 3 * zlen ids) ++ [prec] ++ u16be h ++ u16be w ++ [zlen ids] ++ flat_map (fun id => [id; 17; 0]) ids ++ s) ->
  exists pos', parse_sof (sof_empty csfix) buf pos = Ok (mksof w h (zlen ids) prec (map comp0 ids) csfix, pos') /\ At buf pos' s.
Proof.
  intros buf pos csfix prec w h ids s HP HW HH HN H. unfold parse_sof.
  destruct (At_u16 _ _ (8 + 3 * zlen ids) _ ltac:(lia) H) as [E1 A1]. rewrite E1. cbn [bind app] in *.
  rewrite (At_u8 _ _ _ _ A1). cbn [bind]. apply At_next in A1.
  destruct (At_u16 _ _ _ _ HH A1) as [E2 A2]. rewrite E2. cbn [bind].
  destruct (At_u16 _ _ _ _ HW A2) as [E3 A3]. rewrite E3. cbn [bind app] in *.
  rewrite (At_u8 _ _ _ _ A3). cbn [bind]. apply At_next in A3.
  replace (16 <? prec) with false by lia. replace ((4 <? zlen ids) || (zlen ids <? 1)) with false by lia.
  replace (8 + 3 * zlen ids =? 8 + zlen ids * 3) with true by lia. cbn [negb].
  destruct (read_comps buf ids [] 0 _ s A3) as [E4 A4]. rewrite Z.add_0_l in E4. cbn [s_comps sof_empty s_csfix]. rewrite E4. cbn [bind app].
  eexists. split; [reflexivity|exact A4].
Qed.

(** ** SOS *)
Definition comp1 (it : Z * Z) : component := mkcomp (fst it) (snd it) 1 1.
Lemma set_table_app : forall a id t b td, ~ In id (map c_id a) ->
  set_table (a ++ mkcomp id t 1 1 :: b) id td = Some (a ++ mkcomp id td 1 1 :: b).
Proof.
  induction a as [|c a IH]; intros id t b td H; cbn [app set_table c_id].
  - rewrite Z.eqb_refl. reflexivity.
  - cbn [map] in H. replace (c_id c =? id) with false by (symmetry; apply Z.eqb_neq; intros E; apply H; left; exact E).
    rewrite IH by (intros C; apply H; right; exact C). reflexivity.
Qed.

Lemma read_selectors : forall buf csfix its a ids tables i pos s,
  its = combine ids tables -> length ids = length tables -> Forall (fun t => 0 <= t <= 3) tables ->
  NoDup (map fst a ++ ids) -> (csfix = true -> ids = zrange i (i + zlen ids)) ->
  At buf pos (flat_map (fun '(id, t) => [id; 16 * t]) its ++ s) ->
  rfold (fun cs '(comps, pos) =>
      '(readcs, pos) <- bs_u8 buf pos ;;
      let cs := if csfix : bool then cs else readcs in
      match set_table comps cs 0 with
      | None => Err "ljpeg: invalid component selector"%string
      | Some _ =>
          '(b, pos) <- bs_u8 buf pos ;;
          let td := Z.shiftr b 4 in
          if 3 <? td then Err "ljpeg: Invalid Huffman table selection"%string
          else match set_table comps cs td with
               | Some comps' => Ok (comps', pos)
               | None => Panic
               end
      end)
    (zrange i (i + zlen ids)) (map comp1 a ++ map comp0 ids, pos) = Ok (map comp1 (a ++ its), pos + 2 * zlen ids) /\ At buf (pos + 2 * zlen ids) s.
Proof.
  intros buf csfix its. induction its as [|[id t] its IH]; intros a ids tables i pos s HI HL HT HD HC H.
  - destruct ids as [|id ids]; [|destruct tables; [discriminate HL|discriminate HI]].
    change (zlen (@nil Z)) with 0. rewrite zrange_empty by lia. cbn [rfold map]. rewrite !app_nil_r. change (2 * 0) with 0. rewrite Z.add_0_r. split; [reflexivity|exact H].
  - destruct ids as [|id' ids]; [discriminate HI|]. destruct tables as [|t' tables]; [discriminate HL|].
    cbn [combine] in HI. injection HI as <- <- HI. rewrite zlen_cons in *. pose proof (zlen_nonneg ids) as NI.
    rewrite zrange_cons by lia. cbn [rfold flat_map app] in *.
    rewrite (At_u8 _ _ _ _ H). cbn [bind]. apply At_next in H. cbv zeta.
    assert (ECS : (if csfix then i else id) = id).
    { destruct csfix; [|reflexivity]. specialize (HC eq_refl). rewrite zrange_cons in HC by lia. congruence. }
    rewrite ECS. pose proof (Forall_inv HT) as T3. cbn in T3.
    assert (NI' : ~ In id (map c_id (map comp1 a))).
    { rewrite map_map. cbn [comp1 c_id]. apply NoDup_remove in HD. destruct HD as [_ HD]. intros C. apply HD. apply in_or_app. left. exact C. }
    cbn [map]. change (comp0 id) with (mkcomp id 0 1 1). rewrite set_table_app by exact NI'.
    rewrite (At_u8 _ _ _ _ H). cbn [bind]. apply At_next in H.
    assert (ET : Z.shiftr (16 * t) 4 = t) by (rewrite Z.shiftr_div_pow2 by lia; change (2 ^ 4) with 16; lia).
    rewrite ET. replace (3 <? t) with false by lia. rewrite set_table_app by exact NI'. cbn [bind].
    destruct (IH (a ++ [(id, t)]) ids tables (i + 1) (pos + 1 + 1) s HI ltac:(cbn in HL; lia) (Forall_inv_tail HT)) as [E1 E2].
    + rewrite map_app, <- app_assoc. exact HD.
    + intros Ct. specialize (HC Ct). rewrite zrange_cons in HC by lia. replace (i + 1 + zlen ids) with (i + (1 + zlen ids)) by lia. congruence.
    + exact H.
    + replace (i + (1 + zlen ids)) with (i + 1 + zlen ids) by lia. rewrite map_app, <- app_assoc in E1. cbn [map app] in E1.
      change (mkcomp id t 1 1) with (comp1 (id, t)). rewrite E1.
      replace (pos + 2 * (1 + zlen ids)) with (pos + 1 + 1 + 2 * zlen ids) by lia. rewrite <- app_assoc. split; [reflexivity|exact E2].
Qed.

Lemma parse_sos_ok : forall buf pos csfix prec w h ids tables predictor pt s, w <> 0 -> 1 <= zlen ids <= 4 ->
  length ids = length tables -> Forall (fun t => 0 <= t <= 3) tables -> NoDup ids -> (csfix = true -> ids = zrange 0 (zlen ids)) -> 0 <= pt < 16 ->
  At buf pos (u16be (6 + 2 * zlen ids) ++ [zlen ids] ++ flat_map (fun '(id, t) => [id; 16 * t]) (combine ids tables) ++ [predictor; 0; pt] ++ s) ->
  exists pos', parse_sos (mksof w h (zlen ids) prec (map comp0 ids) csfix) buf pos
    = Ok (mksof w h (zlen ids) prec (map comp1 (combine ids tables)) csfix, predictor, pt, pos') /\ At buf pos' s.
Proof.
  intros buf pos csfix prec w h ids tables predictor pt s HW HN HL HT HD HC HP H. unfold parse_sos. cbn [s_width s_cps s_comps s_csfix s_height s_precision].
  replace (w =? 0) with false by lia.
  destruct (At_u16 _ _ (6 + 2 * zlen ids) _ ltac:(lia) H) as [E1 A1]. rewrite E1. cbn [bind app] in *.
  rewrite (At_u8 _ _ _ _ A1). cbn [bind]. apply At_next in A1. rewrite Z.eqb_refl. cbn [negb].
  destruct (read_selectors buf csfix (combine ids tables) [] ids tables 0 (pos + 2 + 1) (predictor :: 0 :: pt :: s) eq_refl HL HT) as [E2 A2].
  - exact HD.
  - rewrite Z.add_0_l. exact HC.
  - exact A1.
  - rewrite Z.add_0_l in E2. cbn [map app] in E2. cbv zeta in *. rewrite E2. cbn [bind].
    rewrite (At_u8 _ _ _ _ A2). cbn [bind]. apply At_next in A2. rewrite (At_u8 _ _ _ _ A2). cbn [bind]. apply At_next in A2.
    rewrite (At_u8 _ _ _ _ A2). cbn [bind]. apply At_next in A2.
    assert (EP : Z.land pt 0xf = pt) by (change 0xf with (2 ^ 4 - 1); rewrite land_ones_mod by lia; change (2 ^ 4) with 16; lia).
    rewrite EP. eexists. split; [reflexivity|exact A2].
Qed.

(** ** The file *)
Section File.
Context {M : Mode}.
Variables (hs : list hcode) (prec w h : Z) (ids tables : list Z) (pt : Z) (data tail : list Z) (dng csfix : bool).
Hypothesis Hhs : (1 <= length hs <= 4)%nat.
Hypothesis Hgood : Forall (good_code debug prec) hs.
Hypothesis Hprec : 12 <= prec <= 16.
Hypothesis Hw : 0 < w < 65536.
Hypothesis Hh : 0 <= h < 65536.
Hypothesis Hpt : 0 <= pt < 16.
Hypothesis Hids : (1 <= length ids <= 4)%nat.
Hypothesis Hdup : NoDup ids.
Hypothesis Htab : length tables = length ids.
Hypothesis Hsel : Forall (fun t => 0 <= t < Z.of_nat (length hs)) tables.
Hypothesis Hfix : csfix = true -> ids = upto (Z.of_nat (length ids)).
Notation file := (jpeg_file hs prec w h ids tables pt data tail).
Notation scan := (stuff data ++ [255; 217] ++ tail).

Lemma good_0 : Forall (good_code debug 0) hs.
Proof.
  eapply Forall_impl; [|exact Hgood]. intros c [A [B [C [D E]]]]. split; [exact A|]. split; [exact B|]. split; [exact C|]. split; [left; lia|exact E].
Qed.
Lemma dht_len : zlen (dht_tables hs) <= 4 * 273.
Proof.
  unfold dht_tables. assert (G : forall l s, Forall (good_code debug 0) l -> zlen (concat (map (fun '(i, h) => dht_table (Z.of_nat i) h) (combine (seq s (length l)) l))) <= 273 * zlen l).
  { induction l as [|c l IH]; intros s F; [cbn; lia|]. destruct (Forall_inv F) as [[C16 [_ [C256 _]]] [[Sl _] _]].
    cbn [length seq combine map concat]. rewrite zlen_app, zlen_cons. specialize (IH (S s) (Forall_inv_tail F)).
    unfold dht_table at 1. rewrite zlen_cons, zlen_app. unfold zlen in *. lia. }
  specialize (G hs 0%nat good_0). unfold zlen in *. lia.
Qed.

Definition empty_tables (n : nat) : list hufftable := repeat (huff_empty 0) n.

Lemma new_tables : exists ts, length ts = length hs /\ (forall k, (k < length hs)%nat ->
    huff_new (0 :: hc_counts (nth k hs (mkcode [] []))) (padded (hc_syms (nth k hs (mkcode [] [])))) prec dng = Ok (nth k ts (huff_empty 0))) /\
  mapM (fun i =>
      init <- get (init_arr hs) i ;;
      if init : bool then
        bits <- get (bits_arr hs) i ;; vals <- get (vals_arr hs) i ;;
        huff_new bits vals prec dng
      else Ok (huff_empty 0)) (zrange 0 4) = Ok (ts ++ empty_tables (4 - length hs)).
Proof.
  assert (G : exists ts, Forall2 (fun c t => huff_new (0 :: hc_counts c) (padded (hc_syms c)) prec dng = Ok t) hs ts).
  { clear - Hgood Hprec. induction hs as [|c l IH]; [exists []; constructor|]. destruct (IH (Forall_inv_tail Hgood)) as [ts F].
    destruct (Forall_inv Hgood) as [A [B [C [D _]]]].
    destruct (new_builds (hc_counts c) (hc_syms c) prec dng A B ltac:(lia) C D) as [t E]. exists (t :: ts). constructor; assumption. }
  destruct G as [ts F]. exists ts. pose proof (Forall2_length _ _ _ F) as L. split; [lia|]. split.
  - intros k Hk. clear - F Hk. revert k Hk. induction F as [|c t l ts E F IH]; intros k Hk; [cbn in Hk; lia|].
    destruct k; [exact E|]. cbn [nth]. apply IH. cbn in Hk. lia.
  - apply Forall2_mapM_Ok.
    assert (EZ : zrange 0 4 = zrange 0 (zlen hs) ++ zrange (zlen hs) 4) by (apply zrange_split; unfold zlen; lia).
    rewrite EZ. apply Forall2_app.
    + assert (G : forall l ls pre, Forall2 (fun c t => huff_new (0 :: hc_counts c) (padded (hc_syms c)) prec dng = Ok t) l ls -> hs = pre ++ l ->
        Forall2 (fun i t => (init <- get (init_arr hs) i;; (if init : bool then bits <- get (bits_arr hs) i;; vals <- get (vals_arr hs) i;; huff_new bits vals prec dng else Ok (huff_empty 0))) = Ok t)
          (zrange (zlen pre) (zlen hs)) ls).
      { clear. intros l ls pre F. revert pre. induction F as [|c t l ls E F IH]; intros pre EH.
        - rewrite app_nil_r in EH. rewrite EH, zrange_empty by lia. constructor.
        - assert (zlen hs = zlen pre + (1 + zlen l)) by (rewrite EH, zlen_app, zlen_cons; reflexivity). pose proof (zlen_nonneg l).
          rewrite zrange_cons by lia. constructor.
          + unfold init_arr, bits_arr, vals_arr. rewrite EH. rewrite app_length, !map_app. cbn [length map]. rewrite repeat_app. cbn [repeat].
            rewrite <- !app_assoc. cbn [app].
            rewrite get_app by (rewrite zlen_repeat; reflexivity). cbn [bind].
            rewrite get_app by (rewrite zlen_map; reflexivity). cbn [bind].
            rewrite get_app by (rewrite zlen_map; reflexivity). cbn [bind]. exact E.
          + replace (zlen pre + 1) with (zlen (pre ++ [c])) by (rewrite zlen_app; reflexivity). apply IH. rewrite <- app_assoc. exact EH. }
      apply (G hs ts [] F eq_refl).
    + unfold empty_tables. replace (4 - length hs)%nat with (length (zrange (zlen hs) 4)) by (rewrite zrange_length; unfold zlen; lia).
      assert (G : forall l, (forall i, In i l -> get (init_arr hs) i = Ok false) ->
        Forall2 (fun i t => (init <- get (init_arr hs) i;; (if init : bool then bits <- get (bits_arr hs) i;; vals <- get (vals_arr hs) i;; huff_new bits vals prec dng else Ok (huff_empty 0))) = Ok t)
          l (repeat (huff_empty 0) (length l))).
      { clear. induction l as [|i l IH]; intros Q; constructor; [rewrite Q by (left; reflexivity); reflexivity|apply IH; intros; apply Q; right; assumption]. }
      apply G. intros i Hi. apply zrange_In in Hi. unfold get, init_arr. rewrite zlen_app, !zlen_repeat. unfold zlen in *.
      replace ((0 <=? i) && (i <? Z.of_nat (length hs) + Z.of_nat (4 - length hs))) with true by lia.
      rewrite nth_error_app2 by (rewrite repeat_length; lia). rewrite repeat_length.
      rewrite nth_error_repeat by lia. reflexivity.
Qed.

Lemma get_map : forall {A B} (f : A -> B) l i x, get l i = Ok x -> get (map f l) i = Ok (f x).
Proof.
  intros A B f l i x. unfold get. rewrite zlen_map. destruct ((0 <=? i) && (i <? zlen l)); [|discriminate].
  rewrite nth_error_map. destruct (nth_error l (Z.to_nat i)); cbn; congruence.
Qed.

Lemma new_file : exists lj, ljpeg_new_full file dng csfix = Ok lj /\ lj_buffer lj = scan /\ lj_pred lj = 1 /\ lj_pt lj = pt /\
  (exists comps, lj_sof lj = mksof w h (Z.of_nat (length ids)) prec comps csfix /\ comps = map comp1 (combine ids tables)) /\
  (forall i, (i < length ids)%nat -> exists t, lj_table lj (Z.of_nat i) = Ok t /\
     let c := nth (Z.to_nat (nth i tables 0)) hs (mkcode [] []) in
     huff_new (0 :: hc_counts c) (padded (hc_syms c)) prec dng = Ok t).
Proof.
  unfold ljpeg_new_full.
  assert (A0 : At file 0 file) by (exists []; split; reflexivity).
  unfold jpeg_file in A0 at 2. cbn [app] in A0.
  destruct (At_marker _ _ 216 _ ltac:(discriminate) ltac:(discriminate) A0) as [_ [E0 A1]]. rewrite E0. cbn [bind].
  change (216 =? 0xd8) with true. cbn [negb].
  unfold dht_segment in A1. rewrite <- !app_assoc in A1. cbn [app] in A1.
  assert (LF : (5 < length file)%nat).
  { unfold jpeg_file, sof_segment. rewrite !app_length. cbn [length app]. lia. }
  destruct (length file) as [|[|[|[|[|f]]]]] eqn:EF; try lia. cbn [marker_loop].
  destruct (At_marker _ _ 196 _ ltac:(discriminate) ltac:(discriminate) A1) as [E1 [_ A2]]. rewrite E1. cbn [bind].
  change (196 =? 0xc3) with false. change (196 =? 0xc4) with true. cbn iota.
  (* DHT *)
  pose proof dht_len as DL. pose proof (zlen_nonneg (dht_tables hs)) as DN. fold (zlen (dht_tables hs)) in A2.
  destruct (At_u16 _ _ (2 + zlen (dht_tables hs)) _ ltac:(lia) A2) as [E2 A3].
  unfold parse_dht. rewrite E2. cbn [bind]. rewrite usub_ok by lia. cbn [bind].
  replace (2 + zlen (dht_tables hs) - 2) with (zlen (dht_tables hs)) by lia.
  destruct (parse_tables_ok hs [] (S (length file)) file (0 + 2 + 2 + 2) (zlen (dht_tables hs)) 
     (sof_segment prec w h ids ++ sos_segment ids tables 1 pt ++ scan) good_0) as [E3 A4].
  { cbn [length]. lia. } { lia. } { reflexivity. } { exact A3. }
  change (read_tables []) with no_dhts in E3. rewrite E3. cbn [bind app].
  (* SOF *)
  unfold sof_segment in A4. rewrite <- !app_assoc in A4. cbn [app] in A4.
  destruct (At_marker _ _ 195 _ ltac:(discriminate) ltac:(discriminate) A4) as [E4 [_ A5]]. rewrite E4. cbn [bind].
  change (195 =? 0xc3) with true. cbn iota. fold (zlen ids) in A5.
  destruct (parse_sof_ok file _ csfix prec w h ids (sos_segment ids tables 1 pt ++ scan) ltac:(lia) ltac:(lia) Hh ltac:(unfold zlen; lia) A5) as [pos1 [E5 A6]].
  rewrite E5. cbn [bind s_precision]. replace ((16 <? prec) || (prec <? 12)) with false by lia.
  (* SOS *)
  unfold sos_segment in A6. rewrite <- !app_assoc in A6. cbn [app] in A6.
  destruct (At_marker _ _ 218 _ ltac:(discriminate) ltac:(discriminate) A6) as [E6 [_ A7]]. rewrite E6. cbn [bind].
  change (218 =? 0xc3) with false. change (218 =? 0xc4) with false. change (218 =? 0xda) with true. cbn iota. fold (zlen ids) in A7.
  destruct (parse_sos_ok file (pos1 + 2) csfix prec w h ids tables 1 pt scan) as [pos2 [E7 A8]].
  { lia. } { unfold zlen; lia. } { lia. }
  { eapply Forall_impl; [|exact Hsel]. cbn. intros; lia. } { exact Hdup. }
  { intros Ct. specialize (Hfix Ct). rewrite upto_zrange in Hfix. exact Hfix. } { exact Hpt. } { exact A7. }
  rewrite E7. cbn [bind]. destruct new_tables as [ts [Lts [Gts Ets]]].
  cbn [read_tables d_init d_bits d_vals s_precision]. rewrite Ets. cbn [bind].
  destruct (At_bound _ _ _ A8) as [B1 B2]. pose proof (zlen_nonneg scan). rewrite slice_from_ok by lia. cbn [bind].
  eexists. split; [reflexivity|]. cbn [lj_buffer lj_sof lj_pred lj_pt].
  assert (ES : skipn (Z.to_nat pos2) file = scan).
  { destruct A8 as [pre [E P]]. rewrite E, P. unfold zlen. rewrite Nat2Z.id, skipn_app, skipn_all, Nat.sub_diag. reflexivity. }
  split; [exact ES|]. split; [reflexivity|]. split; [reflexivity|]. split.
  { eexists. split; [reflexivity|reflexivity]. }
  intros i Hi. set (tt := nth i tables 0).
  assert (Htt : 0 <= tt < Z.of_nat (length hs)).
  { apply (proj1 (Forall_forall _ _) Hsel). apply nth_In. lia. }
  exists (nth (Z.to_nat tt) ts (huff_empty 0)). split; [|apply Gts; lia].
  unfold lj_table. cbn [lj_sof s_comps lj_dhts].
  assert (Lc : length (combine ids tables) = length ids) by (rewrite combine_length; lia).
  assert (EG : get (combine ids tables) (Z.of_nat i) = Ok (nth i ids 0, tt)).
  { unfold get, zlen. rewrite Lc. replace ((0 <=? Z.of_nat i) && (Z.of_nat i <? Z.of_nat (length ids))) with true by lia.
    rewrite Nat2Z.id. rewrite (nth_error_nth' _ (0, 0)) by lia. rewrite combine_nth by lia. reflexivity. }
  rewrite (get_map comp1 _ _ _ EG). cbn [bind comp1 fst snd c_tbl].
  unfold get, zlen. rewrite app_length. unfold empty_tables. rewrite repeat_length.
  replace ((0 <=? tt) && (tt <? Z.of_nat (length ts + (4 - length hs)))) with true by lia.
  rewrite nth_error_app1 by lia. rewrite (nth_error_nth' ts (huff_empty 0)) by lia. reflexivity.
Qed.
End File.

(** ** Stuffing *)
Lemma unstuff_stuff : forall l tail, bytes l -> unstuff (stuff l ++ 255 :: 217 :: tail) = l.
Proof.
  intros l tail H. induction H as [|b l Hb Hl IH]; [reflexivity|].
  unfold stuff in *. cbn [flat_map]. destruct (b =? 255) eqn:E; rewrite <- app_assoc; cbn [app unstuff].
  - change (255 =? 255) with true. cbn iota. change (0 =? 0) with true. cbn iota. rewrite IH. f_equal. lia.
  - rewrite E, IH. reflexivity.
Qed.
Lemma stuff_bytes : forall l, bytes l -> bytes (stuff l).
Proof.
  intros l H. induction H as [|b l Hb Hl IH]; [constructor|]. unfold stuff in *. cbn [flat_map]. apply Forall_app. split; [|exact IH].
  destruct (b =? 255); repeat constructor; unfold byte in *; lia.
Qed.

Lemma file_round_trip : forall {M : Mode} hs prec w h ids tables pt data tail dng csfix pic filler,
  let n := Z.of_nat (length ids) in
  let codes i := nth (Z.to_nat (nth (Z.to_nat i) tables 0)) hs (mkcode [] []) in
  let base := 2 ^ (prec - pt - 1) in
  (1 <= length hs <= 4)%nat -> Forall (good_code debug prec) hs -> (dng = true -> Forall (fun c => ~ In 16 (hc_syms c)) hs) ->
  12 <= prec <= 16 -> 0 < w < 65536 -> 0 < h < 65536 -> 0 <= pt < Z.min prec 16 ->
  2 <= n <= 4 -> NoDup ids -> length tables = length ids -> Forall (fun t => 0 <= t < Z.of_nat (length hs)) tables ->
  (csfix = true -> ids = upto n) ->
  bytes data -> bytes tail -> last (217 :: tail) 0 <> 255 -> 4 <= Z.of_nat (length (stuff data ++ [255; 217] ++ tail)) < 2 ^ 64 ->
  picture_of_samples pic n w h -> codable prec codes n base pic w h ->
  bits_of data = coded codes n base pic w h ++ filler ->
  exists lj, ljpeg_new_full (jpeg_file hs prec w h ids tables pt data tail) dng csfix = Ok lj /\
    lj_width lj = n * w /\ lj_height lj = h /\
    forall out x stride w' h', 0 < w' <= w -> 0 < h' <= h -> 0 <= x -> x + n * w' <= stride ->
      (h' - 1) * stride + x + n * w' <= Z.of_nat (length out) -> (n = 4 -> x = 0 /\ stride = n * w') ->
      exists out', ljpeg_decode lj out x stride (n * w') h' = Ok out' /\ pasted n x stride w' h' pic out out'.
Proof.
  intros M hs prec w h ids tables pt data tail dng csfix pic filler n codes base Hhs Hg Hd Hp Hw Hh Hpt Hn Hdup Hlt Hsel Hfix Hb Hbt Hlast H4 Hpic Hcod Ebits.
  destruct (new_file hs prec w h ids tables pt data tail dng csfix Hhs Hg Hp Hw ltac:(lia) ltac:(lia) ltac:(unfold n in Hn; lia) Hdup Hlt Hsel Hfix)
    as [lj [E [Eb [Epr [Ept [[comps [Es Ecomps]] Et]]]]]].
  exists lj. split; [exact E|]. unfold lj_width, lj_height. rewrite Es. cbn [s_width s_cps s_height]. split; [fold n; lia|]. split; [reflexivity|].
  intros out x stride w' h' Hw' Hh' Hx Hst Hout H4c.
  assert (HR : reads_with lj dng codes n).
  { intros i Hi. rewrite Es. cbn [s_precision].
    assert (HIn : In (codes i) hs).
    { unfold codes. apply nth_In. assert (0 <= nth (Z.to_nat i) tables 0 < Z.of_nat (length hs)); [|lia].
      apply (proj1 (Forall_forall _ _) Hsel). apply nth_In. unfold n in Hi. lia. }
    split; [exact (proj1 (Forall_forall _ _) Hg _ HIn)|]. split.
    { intros Dt. exact (proj1 (Forall_forall _ _) (Hd Dt) _ HIn). }
    destruct (Et (Z.to_nat i) ltac:(unfold n in Hi; lia)) as [t [E1 E2]]. rewrite Z2Nat.id in E1 by lia. exists t. split; [exact E1|exact E2]. }
  assert (HB : readable JPEG (stuff data ++ [255; 217] ++ tail)).
  { split.
    - apply Forall_app. split; [apply stuff_bytes; exact Hb|]. apply Forall_app. split; [repeat constructor; unfold byte; lia|exact Hbt].
    - intros _. split; [exact H4|]. replace (stuff data ++ [255; 217] ++ tail) with ((stuff data ++ [255]) ++ 217 :: tail) by (rewrite <- app_assoc; reflexivity).
      assert (G : forall (a b : list Z) d, b <> [] -> last (a ++ b) d = last b d).
      { induction a as [|y a IHa]; intros b d Hne; [reflexivity|]. cbn [app]. destruct (a ++ b) eqn:Eab; [destruct a; [cbn in Eab; congruence|discriminate]|].
        rewrite <- Eab. specialize (IHa b d Hne). rewrite Eab in *. cbn [last]. exact IHa. }
      rewrite G by discriminate. exact Hlast. }
  destruct (components_ok lj dng codes n pic x stride w' h' out (stuff data ++ [255; 217] ++ tail) 32 (filler ++ repeat false 32)) as [out' [E' HP]].
  - lia.
  - rewrite Es, Ept. cbn [s_precision]. lia.
  - rewrite Es. cbn [s_precision]. lia.
  - rewrite Es. cbn [s_width]. lia.
  - exact HR.
  - exact Eb.
  - exact HB.
  - rewrite Es, Ept. cbn [s_precision s_width s_height]. cbn [stream app]. rewrite unstuff_stuff by exact Hb. fold base. rewrite Ebits, <- app_assoc. reflexivity.
  - rewrite app_length, repeat_length. lia.
  - rewrite Es. exact Hpic.
  - rewrite Es, Ept. exact Hcod.
  - rewrite Es. exact Hw'.
  - rewrite Es. exact Hh'.
  - exact Hx.
  - exact Hst.
  - exact Hout.
  - exists out'. split; [|exact HP]. unfold ljpeg_decode. rewrite Es. cbn [s_comps s_cps]. rewrite Epr.
    assert (G0 : exists id t, get comps 0 = Ok (mkcomp id t 1 1)).
    { rewrite Ecomps. unfold n in Hn. destruct ids as [|id ids']; [cbn in Hn; lia|]. destruct tables as [|t tables']; [discriminate|].
      exists id, t. reflexivity. }
    destruct G0 as [id [t G0]]. rewrite G0. cbn [bind c_super_h c_super_v]. change (1 =? 2) with false. cbn [andb]. change (1 =? 1) with true. cbn iota.
    fold n. assert (n = 2 \/ n = 3 \/ n = 4) as [N|[N|N]] by lia; rewrite N in *.
    + exact E'.
    + exact E'.
    + destruct (H4c eq_refl) as [-> ->]. exact E'.
Qed.
