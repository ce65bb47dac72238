(** Whole Sony files (C67). *)
From Coq Require Import String Ascii ZArith List Bool Reals Lia.
From Flocq Require Import Core BinarySingleNaN.
From Verif Require Import Base Num F32 Bytes Pumps Lookup Arw Packed Tiff Transform Image Camera Clients Decoder Dec_Simple Dec_Pred Dec_Nef Dispatch.
From Verif Require Import Spec_Bits Spec_Image Spec_Pump Spec_Stream Spec_Packed Spec_Tiff Spec_Camera Spec_Known Spec_Huffman Spec_Ljpeg Spec_Curve Spec_Nikon Spec_Sensor Spec_Sony Spec_Meta Spec_File Spec_Tree Spec_SonyFile.
From Verif Require Import P_Base P_Bits P_Tiff3 P_Tiff5 P_Packed5 P_Meta1 P_Meta2 P_File1 P_File2 P_File3 P_File4 P_Tree1 P_Tree2 P_Tree3.
From Verif Require Ljpeg P_Packed2 P_Sensor1 P_Missing1 Props_Sensor Props_Packed Props_Sony.
Import ListNotations.
Local Open Scope Z_scope.

Lemma placed_at : forall buf pos s, placed buf pos s -> at_pos buf pos s.
Proof. intros buf pos s (b & a & -> & H). exists b, a. auto. Qed.
Lemma bytes_of_bytes : forall big n v, Forall (fun c => 0 <= c < 256) (bytes_of big n v).
Proof.
  assert (L : forall n v, Forall (fun c => 0 <= c < 256) (little n v)) by (induction n as [|n IH]; intros v; cbn [little]; constructor; [apply Z.mod_pos_bound; lia|apply IH]).
  intros [] n v; unfold bytes_of; [apply Forall_rev|]; apply L.
Qed.
Lemma small_category : forall d, Z.abs d < 2 ^ 16 -> (category d <= 17)%nat.
Proof.
  intros d H. unfold category. destruct (d =? 0) eqn:E; [lia|]. pose proof (Z.log2_nonneg (Z.abs d)). assert (Z.log2 (Z.abs d) < 16) by (apply Z.log2_lt_pow2; lia). lia.
Qed.
Lemma small_differences : forall l, (forall v, In v l -> 0 <= v < 2 ^ 16) -> Forall (fun d => (category d <= 17)%nat) (differences 0 l).
Proof.
  assert (G : forall l before, 0 <= before < 2 ^ 16 -> (forall v, In v l -> 0 <= v < 2 ^ 16) -> Forall (fun d => (category d <= 17)%nat) (differences before l)).
  { change (2 ^ 16) with 65536. induction l as [|v l IH]; intros before Hb H; cbn [differences]; [constructor|]. pose proof (H v (or_introl eq_refl)). constructor; [apply small_category; change (2 ^ 16) with 65536; lia|].
    apply IH; [assumption|]. intros u Hu. apply H. right. exact Hu. }
  intros l H. apply G; [change (2 ^ 16) with 65536; lia|exact H].
Qed.
(** ** The hidden directory *)
Lemma hidden_read : forall file offset len key plain, bytes file -> 0 <= offset -> 0 <= len -> hides file offset len key plain -> sony_decrypt (buffer_new file) offset len key = Ok plain.
Proof.
  intros file offset len key plain Hb Ho Hl (Bp & Lp & Fp & s & Hs & Hw). assert (Bf : bytes (buffer_new file)) by (apply Forall_app; split; [exact Hb|apply zeros_bytes]).
  assert (Hn : 0 <= len / 4) by (apply Z.div_pos; lia).
  destruct (P_Sensor1.decrypt_total (buffer_new file) offset len key Bf Ho Hl) as [out E]. { unfold buffer_new. rewrite zlen_app. unfold zlen at 1. pose proof (zlen_nonneg (zeros 16)). lia. }
  rewrite E. f_equal. destruct (P_Sensor1.decrypt_words _ _ _ _ _ _ Bf Ho Hl Hs E) as (Bo & Lo & Wo). unfold zlen in *.
  set (n := Z.to_nat (len / 4 + 1)). rewrite (P_Sensor1.words_bytes n out Bo) by lia. rewrite (P_Sensor1.words_bytes n plain Bp) by lia.
  rewrite !flat_map_concat_map. f_equal. apply map_ext_in. intros i Hi. apply in_seq in Hi. f_equal. rewrite Wo by lia.
  assert (Q : word_at (buffer_new file) (offset + 4 * Z.of_nat i) = word_at file (offset + 4 * Z.of_nat i)).
  { unfold word_at, buffer_new. f_equal. rewrite skipn_app, firstn_app, skipn_length. replace (4 - (length file - Z.to_nat (offset + 4 * Z.of_nat i)))%nat with 0%nat by lia. cbn [firstn]. apply app_nil_r. }
  rewrite Q, Hw by lia. rewrite Z.lxor_assoc, Z.lxor_nilpotent, Z.lxor_0_r. reflexivity.
Qed.
(** ** A part that goes on after the end *)
Inductive calm {A} : res A -> Prop := calm_ok : forall x, calm (Ok x) | calm_panic : calm Panic.
Lemma calm_bind : forall {A B} (r : res A) (f : A -> res B), calm r -> (forall x, calm (f x)) -> calm (bind r f).
Proof. intros A B r f [x|] H2; [apply H2|apply calm_panic]. Qed.
Lemma calm_get : forall {A} (v : list A) i, calm (get v i).
Proof. intros A v i. unfold get. destruct (_ && _); [destruct (nth_error _ _)|]; constructor. Qed.
Lemma calm_upd : forall {A} (v : list A) i x, calm (upd v i x).
Proof. intros A v i x. unfold upd. destruct (_ && _); constructor. Qed.
Lemma calm_word : forall buf i, calm (LEu32 buf i).
Proof. intros buf i. unfold LEu32, slice. destruct (_ && _); constructor. Qed.
Lemma calm_fold : forall {A S} (f : A -> S -> res S) xs s, (forall x s, calm (f x s)) -> calm (rfold f xs s).
Proof. intros A S f xs. induction xs as [|x xs IH]; intros s H; [apply calm_ok|]. cbn [rfold]. apply calm_bind; [apply H|]. intros s'. apply IH. exact H. Qed.
Ltac calm1 := repeat lazymatch goal with |- calm (Ok _) => apply calm_ok | |- calm (get _ _) => apply calm_get | |- calm (upd _ _ _) => apply calm_upd | |- calm (LEu32 _ _) => apply calm_word | |- calm (rfold _ _ _) => apply calm_fold; intros ? ? | |- calm (bind _ _) => apply calm_bind; [|intros ?] | |- calm (let '(_, _) := ?x in _) => destruct x | |- calm (let _ := _ in _) => cbv zeta end.
Lemma calm_decrypt : forall buf offset len key, calm (sony_decrypt buf offset len key).
Proof. intros. unfold sony_decrypt, sony_pad, pad_start, decrypt_word. calm1. Qed.
Lemma calm_not : forall {A} (r : res A), calm r -> (forall x, r <> Ok x) -> r = Panic.
Proof. intros A r [x|] H; [destruct (H x eq_refl)|reflexivity]. Qed.
Lemma decrypt_short : forall file offset len key, 0 <= len -> Z.of_nat (length file) + 16 < offset + 4 * (len / 4 + 1) -> sony_decrypt (buffer_new file) offset len key = Panic.
Proof.
  intros file offset len key Hn H. apply calm_not; [apply calm_decrypt|]. intros out E.
  apply P_Sensor1.decrypt_enough in E; [|exact Hn]. unfold buffer_new in E. rewrite zlen_app in E. unfold zlen in E. change (length (zeros 16)) with 16%nat in E. lia.
Qed.
Section Any.
Context {M : Mode}.
Lemma entry_based : forall buf o base place parent f, 0 <= f_tag f < 65536 -> 1 <= f_typ f <= 13 -> 0 <= base -> base + zlen buf < 4294967296 ->
  at_pos buf o (field_entry false (base + place) f) -> (inline false f = false -> at_pos buf place (field_data false f)) ->
  exists en, entry_new buf o base parent false = Ok en /\ holds false f en.
Proof.
  intros buf o base pos parent f T2 Q1 Hbase Hlen H1 H2.
  pose proof (type_size_pos _ Q1) as Q3. destruct (datashift_size _ Q1) as [D1 D2].
  assert (Ho : 0 <= o) by (destruct H1 as (x & y & _ & <-); unfold zlen; lia).
  unfold field_entry in H1. apply at_app in H1. destruct H1 as [A1 H1]. apply at_app in H1. destruct H1 as [A2 H1]. apply at_app in H1. destruct H1 as [A3 A4].
  rewrite !zlen_bytes_of in *. pose proof (field_data_length false f ltac:(lia)) as L. unfold inline in *. fold (zlen (field_data false f)) in *. fold (zlen (f_vals f)) in *.
  assert (Hin : at_pos buf (if zlen (field_data false f) <=? 4 then o + 8 else pos) (field_data false f)).
  { destruct (zlen (field_data false f) <=? 4) eqn:I; [|exact (H2 eq_refl)].
    replace (o + Z.of_nat 2 + Z.of_nat 2 + Z.of_nat 4) with (o + 8) in A4 by lia.
    rewrite firstn_app, firstn_all2 in A4 by (unfold zlen in I; lia). apply at_app in A4. apply A4. }
  pose proof (at_len _ _ _ Hin) as Hdr. assert (Hcnt : zlen (field_data false f) < 4294967296) by lia.
  pose proof (zlen_nonneg (f_vals f)) as Hv.
  unfold entry_new. rewrite (ru16_at _ _ _ _ A1) by lia. cbn [bind].
  replace (o + 2) with (o + Z.of_nat 2) by lia. rewrite (ru16_at _ _ _ _ A2) by lia. cbn [bind].
  replace (o + 4) with (o + Z.of_nat 2 + Z.of_nat 2) by lia. rewrite (ru32_at _ _ _ _ A3) by nia. cbn [bind]. cbv zeta.
  replace ((f_typ f =? 0) || (13 <? f_typ f)) with false by lia. rewrite Z.shiftl_mul_pow2, D1, <- L by lia.
  assert (Hd : (if zlen (field_data false f) <=? 4 then Ok (o + 8) else o0 <- ru32 false buf (o + 8);; usub o0 base) =
    Ok (if zlen (field_data false f) <=? 4 then o + 8 else pos)).
  { destruct (zlen (field_data false f) <=? 4) eqn:I; [reflexivity|].
    replace (o + 8) with (o + Z.of_nat 2 + Z.of_nat 2 + Z.of_nat 4) by lia. pose proof (zlen_nonneg (field_data false f)). rewrite (ru32_at _ _ _ _ A4) by lia. cbn [bind].
    rewrite usub_ok by p2lia. f_equal. lia. }
  rewrite Hd. cbn [bind]. set (d := if zlen (field_data false f) <=? 4 then o + 8 else pos) in *.
  unfold uadd. rewrite arith_u_ok by (pose proof (zlen_nonneg (field_data false f)); p2lia). cbn [bind].
  rewrite (at_slice _ _ _ _ Hin eq_refl). cbn [bind]. eexists. split; [reflexivity|]. split; [|split; [|split; [|split]]]; reflexivity.
Qed.
Definition based_step (deeper : option parser) (buf : list Z) (base : Z) : Z -> list (Z * entry) * list ifd -> res (list (Z * entry) * list ifd) :=
  fun i st =>
      let entry_offset := 0 + 2 + i * 12 in
      tag <- ru16 false buf entry_offset ;;
      if negb (known_tag tag) then Ok st else
      en <- entry_new buf entry_offset base 0 false ;;
      if is_subifd_tag (e_tag en) then
        match deeper with
        | None => Ok st
        | Some parse =>
            rfold (fun i st => off <- get_u32 en i ;; add_sub (parse buf off base 0 false) en st)
              (zrange 0 (e_count en)) st
        end
      else if e_tag en =? T_Makernote then
        match deeper with
        | None => Ok st
        | Some parse => add_sub (makernote parse buf (e_doffset en) base false) en st
        end
      else let '(entries, subs) := st in Ok (insert entries (e_tag en) en, subs).
Lemma based_rows : forall deeper buf base rs i n entries, 0 <= base -> base + zlen buf < 4294967296 -> rows_based buf base (2 + i * 12) rs -> n = i + zlen rs ->
  NoDup (map fst entries ++ map f_tag (map fst rs)) ->
  exists es, Forall2 (stored false) (filter keep (map fst rs)) es /\ rfold (based_step deeper buf base) (zrange i n) (entries, []) = Ok (entries ++ es, []).
Proof.
  intros deeper buf base. induction rs as [|[f place] rs IH]; intros i n entries Hb Hlen Hr Hn Hnd.
  - exists []. split; [constructor|]. rewrite zlen_nil in Hn. rewrite zrange_empty by lia. cbn [rfold]. rewrite app_nil_r. reflexivity.
  - rewrite zlen_cons in Hn. pose proof (zlen_nonneg rs) as Hrs. rewrite (zrange_cons i n) by lia. cbn [rfold]. unfold based_step at 1. cbv zeta.
    cbn [rows_based] in Hr. destruct Hr as (H1 & H2 & H3 & H4 & Ep & Em & Hr). replace (2 + i * 12 + 12) with (2 + (i + 1) * 12) in Hr by lia. change (2 ^ 16) with 65536 in H3.
    cbn [map fst filter] in *. replace (0 + 2 + i * 12) with (2 + i * 12) by lia. set (o := 2 + i * 12) in *. apply placed_at in H1.
    assert (Etag : ru16 false buf o = Ok (f_tag f)) by (apply ru16_at; [|lia]; unfold field_entry in H1; apply at_app in H1; apply H1).
    rewrite Etag. cbn [bind].
    assert (Hnd' : NoDup (map fst entries ++ map f_tag (map fst rs))) by (apply NoDup_remove_1 in Hnd; exact Hnd).
    destruct (entry_based buf o base place 0 f H3 H4 Hb Hlen H1) as (en & En & Hen); [intros G; apply placed_at, H2, G|].
    unfold keep at 1. rewrite Ep. replace (f_tag f =? note_tag) with false by (symmetry; apply Z.eqb_neq; exact Em). cbn [negb]. rewrite !andb_true_r. destruct (known_tag (f_tag f)) eqn:Ek; cbn [negb].
    + rewrite En. cbn [bind]. rewrite (proj1 Hen), pointers_same, Ep. replace (f_tag f =? T_Makernote) with false by (symmetry; apply Z.eqb_neq; exact Em). cbn [bind].
      rewrite insert_new; [|intros G; apply NoDup_remove_2 in Hnd; apply Hnd, in_or_app; left; exact G].
      destruct (IH (i + 1) n (entries ++ [(f_tag f, en)]) Hb Hlen Hr ltac:(lia)) as (es & S1 & S2).
      * rewrite map_app. cbn [map fst]. rewrite <- app_assoc. exact Hnd.
      * exists ((f_tag f, en) :: es). split; [constructor; [split; [reflexivity|exact Hen]|exact S1]|]. rewrite S2, <- app_assoc. reflexivity.
    + cbn [bind]. apply (IH (i + 1) n entries Hb Hlen Hr); [lia|exact Hnd'].
Qed.
Lemma own_read : forall area base fs, 0 <= base -> base + zlen area < 4294967296 -> own_directory area base fs -> exists i, ifd_new area 0 base 0 LITTLE_ENDIAN = Ok i /\ reads false (Tree fs []) i.
Proof.
  intros area base fs Hb Hlen (rs & next & E & Hn & Hnd & Hc & Hr & Hx & Hxr). unfold ifd_new. rewrite levels_body. set (d := Some _). clearbody d.
  destruct (based_rows d area base rs 0 (zlen rs) [] Hb Hlen Hr ltac:(lia)) as (es & S1 & S2); [rewrite E; exact Hnd|].
  exists (mkifd es [] next 0 false). split.
  - unfold ifd_body. change LITTLE_ENDIAN with false. fold (zlen rs) in *. rewrite (ru16_at _ _ _ _ (placed_at _ _ _ Hc)) by (pose proof (zlen_nonneg rs); lia). cbn [bind].
    replace (4000 <? zlen rs) with false by lia. change (rfold _ (zrange 0 (zlen rs)) ([], [])) with (rfold (based_step d area base) (zrange 0 (zlen rs)) ([], [])). rewrite S2. cbn [bind app].
    replace (0 + (2 + zlen rs * 12)) with (2 + 12 * zlen rs) by lia. rewrite (ru32_at _ _ _ _ (placed_at _ _ _ Hx)) by (change (2 ^ 32) with 4294967296 in Hxr; lia). reflexivity.
  - constructor; [exact Hnd|rewrite E in S1; exact S1|constructor].
Qed.
(** ** White balance *)
Definition sony_levels_of (plain : list Z) (offset : Z) : res (vec4 f32) :=
  i <- Ljpeg.unwrap (ifd_new plain 0 offset 0 LITTLE_ENDIAN) ;;
  match find_entry i T_SonyGRBG, find_entry i T_SonyRGGB with
  | Some levels, _ =>
      r <- get_u32 levels 1 ;; g <- get_u32 levels 0 ;; b <- get_u32 levels 2 ;; Ok (V4 (f32_of r) (f32_of g) (f32_of b) NAN)
  | None, Some levels =>
      r <- get_u32 levels 0 ;; g <- get_u32 levels 1 ;; b <- get_u32 levels 3 ;; Ok (V4 (f32_of r) (f32_of g) (f32_of b) NAN)
  | None, None => Err "ARW: Couldn't find GRGB or RGGB levels"
  end.
Lemma sony_part_seen : forall big ts file root offset plain, tree_file big ts file -> Sees big (visible ts) root -> sony_hidden_part big ts file offset plain ->
  arw_wb (buffer_new file) root = sony_levels_of plain offset /\ 0 <= offset /\ offset + zlen plain < 4294967296.
Proof.
  intros big ts file root offset plain Hf P (pos & next & t & len & key & Ha & Hpos & Hw & No & Nl & Nk & Hh).
  pose proof (tf_size _ _ _ Hf) as Hsz. pose proof (tf_bytes _ _ _ Hf) as Hby. change (2 ^ 32) with 4294967296 in Hsz, Hpos.
  destruct (s_in _ _ _ P _ Ha) as (area & E1 & (_ & _ & _ & E4 & E5)).
  assert (E6 : get_force_u32 area 0 = Ok pos).
  { unfold get_force_u32. rewrite E4, E5. unfold field_data. cbn [f_typ f_vals type_size]. change (Z.to_nat 1) with 1%nat. rewrite text_data by (apply bytes_of_bytes).
    change (0 * 4) with 0. apply ru32_at; [|lia]. exists [], []. split; [rewrite app_nil_r; reflexivity|reflexivity]. }
  destruct (written_read 10 false file (zeros 16) pos next t eq_refl) as (priv & R1 & _ & R2); [rewrite zlen_app; unfold zlen; change (length (zeros 16)) with 16%nat; lia|exact Hw|].
  pose proof (tree_sees _ _ _ R2) as S1.
  destruct (see_usize _ _ _ _ _ S1 No) as [Uo Ro]. destruct (see_usize _ _ _ _ _ S1 Nl) as [Ul Rl]. destruct (see_usize _ _ _ _ _ S1 Nk) as [Uk Rk].
  split; [|split; [exact (proj1 Ro)|destruct Hh as (_ & _ & Hh & _); unfold zlen; lia]].
  cbn [f_tag] in E1. unfold arw_wb, fetch_tag. rewrite E1. cbn [bind]. rewrite E6. cbn [bind]. unfold ifd_new at 1. change LITTLE_ENDIAN with false at 1. unfold buffer_new at 1. rewrite R1. cbn [bind].
  rewrite Uo, Ul, Uk. cbn [bind]. rewrite (hidden_read file offset len key plain Hby (proj1 Ro) (proj1 Rl) Hh). reflexivity.
Qed.
Lemma sony_cut_seen : forall big ts file root, tree_file big ts file -> Sees big (visible ts) root -> sony_cut big ts file -> arw_wb (buffer_new file) root = Panic.
Proof.
  intros big ts file root Hf P (pos & next & t & offset & len & key & Ha & Hpos & Hw & No & Nl & Nk & Hh).
  pose proof (tf_size _ _ _ Hf) as Hsz. pose proof (tf_bytes _ _ _ Hf) as Hby. change (2 ^ 32) with 4294967296 in Hsz, Hpos.
  destruct (s_in _ _ _ P _ Ha) as (area & E1 & (_ & _ & _ & E4 & E5)).
  assert (E6 : get_force_u32 area 0 = Ok pos).
  { unfold get_force_u32. rewrite E4, E5. unfold field_data. cbn [f_typ f_vals type_size]. change (Z.to_nat 1) with 1%nat. rewrite text_data by (apply bytes_of_bytes).
    change (0 * 4) with 0. apply ru32_at; [|lia]. exists [], []. split; [rewrite app_nil_r; reflexivity|reflexivity]. }
  destruct (written_read 10 false file (zeros 16) pos next t eq_refl) as (priv & R1 & _ & R2); [rewrite zlen_app; unfold zlen; change (length (zeros 16)) with 16%nat; lia|exact Hw|].
  pose proof (tree_sees _ _ _ R2) as S1.
  destruct (see_usize _ _ _ _ _ S1 No) as [Uo Ro]. destruct (see_usize _ _ _ _ _ S1 Nl) as [Ul Rl]. destruct (see_usize _ _ _ _ _ S1 Nk) as [Uk Rk].
  cbn [f_tag] in E1. unfold arw_wb, fetch_tag. rewrite E1. cbn [bind]. rewrite E6. cbn [bind]. unfold ifd_new at 1. change LITTLE_ENDIAN with false at 1. unfold buffer_new at 1. rewrite R1. cbn [bind].
  rewrite Uo, Ul, Uk. cbn [bind]. rewrite (decrypt_short file offset len key (proj1 Rl) Hh). reflexivity.
Qed.
Lemma sony_wb_seen : forall big ts file root r g b, tree_file big ts file -> Sees big (visible ts) root -> sony_white big ts file r g b ->
  arw_wb (buffer_new file) root = Ok (V4 (f32_of r) (f32_of g) (f32_of b) NAN) /\ 0 <= r < 2 ^ 32 /\ 0 <= g < 2 ^ 32 /\ 0 <= b < 2 ^ 32.
Proof.
  intros big ts file root r g b Hf P (offset & plain & fs & Hh & Hd & Hv). destruct (sony_part_seen _ _ _ _ _ _ Hf P Hh) as (-> & Ro & Rn).
  destruct (own_read plain offset fs Ro Rn Hd) as (i & I1 & I2). pose proof (tree_sees _ _ _ I2) as S2. unfold sony_levels_of. rewrite I1. unfold Ljpeg.unwrap. cbn [bind].
  cbv zeta in Hv. destruct Hv as [(more & Hv)|(Hn & g2 & more & Hv)].
  - destruct (see_numbers _ _ _ _ _ S2 Hv) as (en & F1 & _ & F3). rewrite F1. destruct (F3 0%nat g eq_refl) as (G0 & _ & K0). destruct (F3 1%nat r eq_refl) as (G1 & _ & K1). destruct (F3 2%nat b eq_refl) as (G2 & _ & K2).
    change (Z.of_nat 0) with 0 in G0. change (Z.of_nat 1) with 1 in G1. change (Z.of_nat 2) with 2 in G2. rewrite G1, G0, G2. auto.
  - rewrite (s_no _ _ _ S2 _ Hn). destruct (see_numbers _ _ _ _ _ S2 Hv) as (en & F1 & _ & F3). rewrite F1.
    destruct (F3 0%nat r eq_refl) as (G0 & _ & K0). destruct (F3 1%nat g eq_refl) as (G1 & _ & K1). destruct (F3 3%nat b eq_refl) as (G2 & _ & K2).
    change (Z.of_nat 0) with 0 in G0. change (Z.of_nat 1) with 1 in G1. change (Z.of_nat 3) with 3 in G2. rewrite G0, G1, G2. auto.
Qed.
Lemma sony_no_wb_seen : forall big ts file root, tree_file big ts file -> Sees big (visible ts) root -> sony_no_white big ts file ->
  arw_wb (buffer_new file) root = Err "ARW: Couldn't find GRGB or RGGB levels".
Proof.
  intros big ts file root Hf P (offset & plain & fs & Hh & Hd & N1 & N2). destruct (sony_part_seen _ _ _ _ _ _ Hf P Hh) as (-> & Ro & Rn).
  destruct (own_read plain offset fs Ro Rn Hd) as (i & I1 & I2). pose proof (tree_sees _ _ _ I2) as S2. unfold sony_levels_of. rewrite I1. unfold Ljpeg.unwrap. cbn [bind].
  rewrite (s_no _ _ _ S2 _ N1), (s_no _ _ _ S2 _ N2). reflexivity.
Qed.
Lemma sony_bad_seen : forall big ts file root, tree_file big ts file -> Sees big (visible ts) root -> sony_damaged big ts file -> arw_wb (buffer_new file) root = Panic.
Proof.
  intros big ts file root Hf P (offset & plain & n & Hh & Hd & Hn). destruct (sony_part_seen _ _ _ _ _ _ Hf P Hh) as (-> & Ro & Rn). change (2 ^ 16) with 65536 in Hn.
  unfold sony_levels_of, ifd_new. rewrite levels_body. unfold ifd_body. change LITTLE_ENDIAN with false. rewrite (ru16_at _ _ _ _ (placed_at _ _ _ Hd)) by lia. cbn [bind].
  replace (4000 <? n) with true by lia. reflexivity.
Qed.
End Any.
Section Whole.
Context {M : Mode} (powf : f32 -> f32 -> f32) (parse_f32 : string -> option f32).
Variables (db : list table) (l : loader).
Hypothesis Hl : loader_new db = Ok l.
Ltac picture Hp Hd := destruct (pictured _ _ _ _ _ _ _ _ _ _ _ _ ltac:(eassumption) (tf_bytes _ _ _ (np_file _ _ _ _ _ _ _ _ _ Hp)) Hd) as (sub & [F1 F2 S2 [W Rw] [H Rh] (off & O2 & O3 & O4) B]).
Lemma sony_seen : forall big ts raw model file w h count bps o cam data height is_picture,
  nested_photo l "" big ts "SONY" model file o cam ->
  picture_at ts file T_StripOffsets T_ImageWidth T_ImageLength T_StripOffsets raw w h data ->
  has_number (visible [raw]) T_StripByteCounts count -> sony_bits cam (visible [raw]) bps ->
  sony_stored cam (visible [raw]) w h count bps data height is_picture -> 0 < w ->
  exists root image, tree_file big ts file /\ Sees big (visible ts) root /\ no_black_area cam /\ is_picture image /\
    decode powf parse_f32 l file = (wb <- arw_wb (buffer_new file) root ;; ok_image (set_orientation o cam) w height wb image).
Proof.
  intros big ts raw model file w h count bps o cam data height is_picture Hp Hd Hc Hb Hs Hw0. destruct (nested_opened _ _ _ _ _ _ _ _ _ ARW Hp eq_refl) as (root & [G P C N]). picture Hp Hd.
  destruct (see_usize _ _ _ _ _ S2 Hc) as [Uc Rc].
  assert (exists comp image, tag_usize sub T_Compression = Ok comp /\ is_picture image /\
    (if comp =? 1 then
       image <- (if String.eqb (c_model cam) "DSC-R1" then decode_14be_unpacked (data ++ zeros 16) w h else decode_16le (data ++ zeros 16) w h) ;; Ok (h, image)
     else if comp =? 32767 then
       if negb (w * h * bps =? count * 8) then image <- decode_arw1 (data ++ zeros 16) w (h + 8) ;; Ok (h + 8, image)
       else if bps =? 8 then curve <- arw_get_curve sub ;; image <- decode_arw2 (data ++ zeros 16) w h curve ;; Ok (h, image)
       else if bps =? 12 then image <- decode_12le (data ++ zeros 16) w h ;; Ok (h, image)
       else Err "ARW2: Don't know how to decode images with this bps"
     else Err "ARW: Don't know how to decode type") = Ok (height, image)) as (comp & image & Q1 & Q2 & Q3).
  { inversion Hs as [samples rest Hk Hm Hn Hf|samples rest Hk Hm Hn Hf|samples rest Hk Hbp Hct He Hn Hf|pic imax imin e1 e2 e3 e4 more data' rest Hk Hbp Hct Hmod Hpic Hcv K1 K2 Hbits|pic data' rest Hk Hct He Hpic Hbits]; try match goal with E : h = height |- _ => symmetry in E end; subst.
    - exists 1, samples. split; [apply (see_usize _ _ _ _ _ S2 Hk)|]. split; [reflexivity|]. cbn [Z.eqb Pos.eqb]. rewrite (proj2 (String.eqb_neq _ _) Hm). rewrite <- app_assoc in *. apply Forall_app in B.
      rewrite rt_16le; [reflexivity|exact Hw0|lia|exact Hn|exact Hf|apply B].
    - exists 1, samples. split; [apply (see_usize _ _ _ _ _ S2 Hk)|]. split; [reflexivity|]. cbn [Z.eqb Pos.eqb]. rewrite Hm, String.eqb_refl. rewrite <- app_assoc in *. apply Forall_app in B.
      rewrite rt_14be_in_16; [reflexivity|exact Hw0|lia|exact Hn|exact Hf|apply B].
    - exists 32767, samples. split; [apply (see_usize _ _ _ _ _ S2 Hk)|]. split; [reflexivity|]. cbn [Z.eqb Pos.eqb]. rewrite Hct, Z.eqb_refl. cbn [negb]. rewrite <- app_assoc in *. apply Forall_app in B.
      rewrite Props_Packed.C06_12le; [reflexivity|exact Hw0|apply even_mod; exact He|lia|exact Hn|exact Hf|apply B].
    - destruct (see_numbers _ _ _ _ _ S2 Hcv) as (en & X1 & _ & X3).
      destruct (X3 0%nat e1 eq_refl) as (G0 & _ & L0). destruct (X3 1%nat e2 eq_refl) as (G1 & _ & L1). destruct (X3 2%nat e3 eq_refl) as (G2 & _ & L2). destruct (X3 3%nat e4 eq_refl) as (G3 & _ & L3).
      change (Z.of_nat 0) with 0 in G0. change (Z.of_nat 1) with 1 in G1. change (Z.of_nat 2) with 2 in G2. change (Z.of_nat 3) with 3 in G3.
      destruct (Props_Sony.C58_decoded (M := M) pic imax imin w h e1 e2 e3 e4 (data ++ zeros 16) (rest ++ bits_of_lsb (zeros 16)) Hw0 Hmod (proj1 Rh) Hpic (proj1 L0) (proj1 L1) (proj1 L2) (proj1 L3) K1 K2 B) as (table & out & T1 & T2 & T3).
      { rewrite bits_of_lsb_app, Hbits, <- app_assoc. reflexivity. }
      exists 32767, out. split; [apply (see_usize _ _ _ _ _ S2 Hk)|]. split; [exact T3|]. cbn [Z.eqb Pos.eqb]. rewrite Z.eqb_refl. cbn [negb].
      unfold arw_get_curve, fetch_tag. rewrite X1. cbn [bind]. change (zrange 0 4) with [0; 1; 2; 3]. cbn [mapM]. rewrite G0, G1, G2, G3. cbn [bind]. rewrite T1. cbn [bind]. rewrite T2. reflexivity.
    - destruct (padded_stream data) as (n & Ln & En). rewrite Hbits, <- app_assoc in En.
      destruct (Props_Sensor.C34_arw1 (M := M) (data ++ zeros 16) 0 w (h + 8) pic (rest ++ repeat false n)) as (out & T1 & T2).
      + exact B.
      + split; [exact B|discriminate].
      + exact Hw0.
      + lia.
      + rewrite Z.even_add, He. reflexivity.
      + intros r c Hr Hc'. pose proof (Hpic r c Hr Hc') as Q. change (2 ^ 16) with 65536 in Q. change (2 ^ 30) with 1073741824. lia.
      + apply small_differences. intros v Hv. apply in_map_iff in Hv. destruct Hv as ([r c] & <- & Hv). apply Props_Sensor.C34_every_pixel in Hv; [|rewrite Z.even_add, He; reflexivity]. apply Hpic; apply Hv.
      + exact En.
      + rewrite app_length, repeat_length. lia.
      + exists 32767, out. split; [apply (see_usize _ _ _ _ _ S2 Hk)|]. split.
        * eapply P_Packed2.is_image_ext; [|exact T2]. intros r c Hr Hc'. cbv beta. rewrite Z.mod_small; [reflexivity|]. apply (Hpic r c Hr Hc').
        * cbn [Z.eqb Pos.eqb]. rewrite (proj2 (Z.eqb_neq _ _) Hct). cbn [negb]. rewrite T1. reflexivity. }
  exists root, image. split; [exact (np_file _ _ _ _ _ _ _ _ _ Hp)|]. split; [exact (n_sees _ _ _ P)|]. split; [exact N|]. split; [exact Q2|].
  unfold decode. rewrite G. cbn [bind decoder_image]. unfold arw_image, check_supported. rewrite C. cbn [bind]. rewrite F1, W, H, O2, Uc, Q1. cbn [bind].
  change (c_bps (set_orientation o cam)) with (c_bps cam). change (c_model (set_orientation o cam)) with (c_model cam).
  assert (Eb : (if negb (c_bps cam =? 0) then Ok (c_bps cam) else tag_usize sub T_BitsPerSample) = Ok bps).
    { destruct Hb as [[Hb ->]|[Hb Hb']]; [rewrite (proj2 (Z.eqb_neq _ _) Hb); reflexivity|]. rewrite Hb. cbn [Z.eqb negb]. apply (see_usize _ _ _ _ _ S2 Hb'). }
  rewrite Eb. cbn [bind]. rewrite O3. cbn [bind]. rewrite Q3. reflexivity.
Qed.
Lemma sony_file : forall big ts raw model file w h count bps o cam data height is_picture r g b,
  nested_photo l "" big ts "SONY" model file o cam ->
  picture_at ts file T_StripOffsets T_ImageWidth T_ImageLength T_StripOffsets raw w h data ->
  has_number (visible [raw]) T_StripByteCounts count -> sony_bits cam (visible [raw]) bps ->
  sony_stored cam (visible [raw]) w h count bps data height is_picture -> 0 < w -> sony_white big ts file r g b ->
  exists img, lib_decode powf parse_f32 db file = Ok img /\ shows img cam o w height /\ is_picture (i_data img) /\ i_blacks img = c_blacks cam /\ balance img r g b.
Proof.
  intros big ts raw model file w h count bps o cam data height is_picture r g b Hp Hd Hc Hb Hs Hw0 Hw. destruct (sony_seen _ _ _ _ _ _ _ _ _ _ _ _ _ _ Hp Hd Hc Hb Hs Hw0) as (root & image & Hf & P & N & Q & D).
  destruct (sony_wb_seen big ts file root r g b Hf P Hw) as (Wb & Kr & Kg & Kb).
  destruct (finished cam o w height (V4 (f32_of r) (f32_of g) (f32_of b) NAN) image N) as (img & I1 & I2 & I3 & I4 & I5).
  exists img. split; [|split; [exact I2|split; [rewrite I3; exact Q|split; [exact I4|]]]].
  - eapply lib_decodes; [exact Hl|]. rewrite D, Wb. exact I1.
  - unfold balance. rewrite I5. cbn [e0 e1 e2 e3]. split; [apply number_near; exact Kr|]. split; [apply number_near; exact Kg|]. split; [apply number_near; exact Kb|reflexivity].
Qed.
Lemma sony_no_levels : forall big ts raw model file w h count bps o cam data height is_picture,
  nested_photo l "" big ts "SONY" model file o cam ->
  picture_at ts file T_StripOffsets T_ImageWidth T_ImageLength T_StripOffsets raw w h data ->
  has_number (visible [raw]) T_StripByteCounts count -> sony_bits cam (visible [raw]) bps ->
  sony_stored cam (visible [raw]) w h count bps data height is_picture -> 0 < w -> sony_no_white big ts file ->
  lib_decode powf parse_f32 db file = Err "ARW: Couldn't find GRGB or RGGB levels".
Proof.
  intros big ts raw model file w h count bps o cam data height is_picture Hp Hd Hc Hb Hs Hw0 Hw. destruct (sony_seen _ _ _ _ _ _ _ _ _ _ _ _ _ _ Hp Hd Hc Hb Hs Hw0) as (root & image & Hf & P & N & Q & D).
  eapply P_Missing1.lib_fails; [exact Hl|]. rewrite D, (sony_no_wb_seen _ _ _ _ Hf P Hw). reflexivity.
Qed.
Lemma sony_bad_levels : forall big ts raw model file w h count bps o cam data height is_picture,
  nested_photo l "" big ts "SONY" model file o cam ->
  picture_at ts file T_StripOffsets T_ImageWidth T_ImageLength T_StripOffsets raw w h data ->
  has_number (visible [raw]) T_StripByteCounts count -> sony_bits cam (visible [raw]) bps ->
  sony_stored cam (visible [raw]) w h count bps data height is_picture -> 0 < w -> sony_damaged big ts file ->
  decode powf parse_f32 l file = Panic /\ lib_decode powf parse_f32 db file = Err "Caught a panic while decoding.".
Proof.
  intros big ts raw model file w h count bps o cam data height is_picture Hp Hd Hc Hb Hs Hw0 Hw. destruct (sony_seen _ _ _ _ _ _ _ _ _ _ _ _ _ _ Hp Hd Hc Hb Hs Hw0) as (root & image & Hf & P & N & Q & D).
  assert (E : decode powf parse_f32 l file = Panic) by (rewrite D, (sony_bad_seen _ _ _ _ Hf P Hw); reflexivity). split; [exact E|]. eapply P_Missing1.lib_panics; [exact Hl|exact E].
Qed.
Lemma sony_cut_levels : forall big ts raw model file w h count bps o cam data height is_picture,
  nested_photo l "" big ts "SONY" model file o cam ->
  picture_at ts file T_StripOffsets T_ImageWidth T_ImageLength T_StripOffsets raw w h data ->
  has_number (visible [raw]) T_StripByteCounts count -> sony_bits cam (visible [raw]) bps ->
  sony_stored cam (visible [raw]) w h count bps data height is_picture -> 0 < w -> sony_cut big ts file ->
  decode powf parse_f32 l file = Panic /\ lib_decode powf parse_f32 db file = Err "Caught a panic while decoding.".
Proof.
  intros big ts raw model file w h count bps o cam data height is_picture Hp Hd Hc Hb Hs Hw0 Hw. destruct (sony_seen _ _ _ _ _ _ _ _ _ _ _ _ _ _ Hp Hd Hc Hb Hs Hw0) as (root & image & Hf & P & N & Q & D).
  assert (E : decode powf parse_f32 l file = Panic) by (rewrite D, (sony_cut_seen _ _ _ _ Hf P Hw); reflexivity). split; [exact E|]. eapply P_Missing1.lib_panics; [exact Hl|exact E].
Qed.
Lemma sony_no_private : forall big ts raw model file w h count bps o cam data height is_picture,
  nested_photo l "" big ts "SONY" model file o cam ->
  picture_at ts file T_StripOffsets T_ImageWidth T_ImageLength T_StripOffsets raw w h data ->
  has_number (visible [raw]) T_StripByteCounts count -> sony_bits cam (visible [raw]) bps ->
  sony_stored cam (visible [raw]) w h count bps data height is_picture -> 0 < w -> has_no (visible ts) T_DNGPrivateArea ->
  lib_decode powf parse_f32 db file = Err "Couldn't find tag".
Proof.
  intros big ts raw model file w h count bps o cam data height is_picture Hp Hd Hc Hb Hs Hw0 Hw. destruct (sony_seen _ _ _ _ _ _ _ _ _ _ _ _ _ _ Hp Hd Hc Hb Hs Hw0) as (root & image & Hf & P & N & Q & D).
  eapply P_Missing1.lib_fails; [exact Hl|]. rewrite D. unfold arw_wb, fetch_tag. rewrite (s_no _ _ _ P _ Hw). reflexivity.
Qed.
End Whole.
