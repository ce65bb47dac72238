(** Writing a directory and parsing it. *)
From Coq Require Import String ZArith List Bool Lia ZifyBool ZifyNat.
From Verif Require Import Base Bytes Tiff Spec_Bits Spec_Tiff P_Base P_Bits P_Tiff1 P_Tiff2 P_Tiff3.
Import ListNotations.
Local Open Scope Z_scope.
Ltac Zify.zify_post_hook ::= Z.div_mod_to_equations.

Definition at_pos (buf : list Z) (pos : Z) (s : list Z) : Prop := exists before after, buf = before ++ s ++ after /\ zlen before = pos.
Lemma at_app : forall buf pos a b, at_pos buf pos (a ++ b) -> at_pos buf pos a /\ at_pos buf (pos + zlen a) b.
Proof.
  intros buf pos a b (x & y & -> & <-). split.
  - exists x, (b ++ y). rewrite <- app_assoc. auto.
  - exists (x ++ a), y. rewrite <- !app_assoc, zlen_app. auto.
Qed.
Lemma at_slice : forall buf pos s n, at_pos buf pos s -> n = pos + zlen s -> slice buf pos n = Ok s.
Proof.
  intros buf pos s n (x & y & -> & <-) ->. rewrite slice_ok.
  - f_equal. unfold zlen. rewrite Nat2Z.id, skipn_app, skipn_all, Nat.sub_diag. cbn [app skipn].
    replace (Z.to_nat _) with (length s) by lia. rewrite firstn_app, firstn_all, Nat.sub_diag, firstn_O, app_nil_r. reflexivity.
  - unfold zlen. lia.
  - rewrite !zlen_app. unfold zlen. lia.
Qed.
Lemma little_length : forall n v, length (little n v) = n.
Proof. induction n; intros; cbn; [reflexivity|]. f_equal. apply IHn. Qed.
Lemma bytes_of_length : forall big n v, length (bytes_of big n v) = n.
Proof. intros [|] n v; cbn; [rewrite rev_length|]; apply little_length. Qed.
Lemma zlen_bytes_of : forall big n v, zlen (bytes_of big n v) = Z.of_nat n.
Proof. intros. unfold zlen. rewrite bytes_of_length. reflexivity. Qed.
Ltac pows := change (256 ^ Z.of_nat 0) with 1; change (256 ^ Z.of_nat 1) with 256; change (256 ^ Z.of_nat 2) with 65536; change (256 ^ Z.of_nat 3) with 16777216.
Lemma ru16_at : forall e buf pos v, at_pos buf pos (bytes_of e 2 v) -> 0 <= v < 65536 -> ru16 e buf pos = Ok v.
Proof.
  intros e buf pos v H Hv. pose proof (at_slice _ _ _ (pos + 2) H) as S. rewrite zlen_bytes_of in S. specialize (S eq_refl).
  destruct e; cbn [ru16]; unfold BEu16, LEu16; rewrite S; cbn [bind bytes_of little rev app]; f_equal.
  - rewrite be16_value by (unfold byte; lia). cbn [big_endian_value length]. pows. lia.
  - rewrite le16_value by (unfold byte; lia). cbn [little_endian_value]. lia.
Qed.
Lemma ru32_at : forall e buf pos v, at_pos buf pos (bytes_of e 4 v) -> 0 <= v < 4294967296 -> ru32 e buf pos = Ok v.
Proof.
  intros e buf pos v H Hv. pose proof (at_slice _ _ _ (pos + 4) H) as S. rewrite zlen_bytes_of in S. specialize (S eq_refl).
  destruct e; cbn [ru32]; unfold BEu32, LEu32; rewrite S; cbn [bind bytes_of little rev app]; f_equal.
  - rewrite be32_value by (unfold byte; lia). cbn [big_endian_value length]. pows. lia.
  - rewrite le32_value by (unfold byte; lia). cbn [little_endian_value]. lia.
Qed.
Lemma get_at : forall e buf pos v, at_pos buf pos (bytes_of e 1 v) -> 0 <= v < 256 -> get buf pos = Ok v.
Proof.
  intros e buf pos v (x & y & -> & <-) Hv. unfold get. replace ((0 <=? zlen x) && _) with true.
  - unfold zlen. rewrite Nat2Z.id, nth_error_app2, Nat.sub_diag by lia. destruct e; cbn; f_equal; lia.
  - symmetry. rewrite !zlen_app, zlen_bytes_of. pose proof (zlen_nonneg x). pose proof (zlen_nonneg y). lia.
Qed.

Lemma field_data_length : forall big f, 0 <= type_size (f_typ f) -> zlen (field_data big f) = zlen (f_vals f) * type_size (f_typ f).
Proof.
  intros big f H. unfold field_data. induction (f_vals f) as [|v t IH]; [reflexivity|]. cbn [flat_map]. rewrite zlen_app, IH, zlen_bytes_of, zlen_cons. lia.
Qed.
Lemma field_data_at : forall big f k v, 0 <= type_size (f_typ f) -> nth_error (f_vals f) k = Some v ->
  at_pos (field_data big f) (Z.of_nat k * type_size (f_typ f)) (bytes_of big (Z.to_nat (type_size (f_typ f))) v).
Proof.
  intros big f k v H Hk. apply nth_error_split in Hk. destruct Hk as (x & y & E & L).
  exists (flat_map (bytes_of big (Z.to_nat (type_size (f_typ f)))) x), (flat_map (bytes_of big (Z.to_nat (type_size (f_typ f)))) y).
  unfold field_data. rewrite E, flat_map_app. cbn [flat_map]. split; [reflexivity|].
  subst k. clear E. induction x as [|w t IH]; [reflexivity|]. cbn [flat_map length]. rewrite zlen_app, IH, zlen_bytes_of. lia.
Qed.

(** A parsed entry that holds the field. *)
Definition holds (big : bool) (f : field) (en : entry) : Prop :=
  e_tag en = f_tag f /\ e_typ en = f_typ f /\ e_count en = zlen (f_vals f) /\ e_data en = field_data big f /\ e_endian en = big.

Lemma plain_kept : forall f, plain_field f -> kept_field f.
Proof. intros f (H1 & H2 & H3 & _). split; [exact H1|]. split; [exact H2|]. apply integer_size. exact H3. Qed.
Lemma kept_tag : forall f, kept_field f -> known_tag (f_tag f) = true /\ 0 <= f_tag f < 65536 /\ is_subifd_tag (f_tag f) = false /\ (f_tag f =? T_Makernote) = false.
Proof.
  intros f (H1 & H2 & _). split; [apply known_In; exact H1|]. split.
  - assert (G : Forall (fun t => 0 <= t < 65536) known_tags) by (repeat constructor; lia). rewrite Forall_forall in G. apply G. exact H1.
  - cbn [In] in H2. unfold is_subifd_tag, T_SubIFDs, T_ExifIFDPointer, T_RafRawSubIFD, T_KodakIFD, T_KdcIFD, T_Makernote. lia.
Qed.

Section Any.
Context {M : Mode}.
Lemma get_u32_holds : forall big f en k v, integer_type (f_typ f) = true -> Forall (fun v => 0 <= v < 256 ^ type_size (f_typ f)) (f_vals f) ->
  holds big f en -> nth_error (f_vals f) k = Some v -> get_u32 en (Z.of_nat k) = Ok v.
Proof.
  intros big f en k v P3 P4 (_ & Ht & _ & Hd & He) Hk.
  destruct (integer_size _ P3) as [Q1 Q2]. pose proof (type_size_pos _ Q1) as Q3.
  pose proof (field_data_at big f k v ltac:(lia) Hk) as A. apply nth_error_In in Hk. rewrite Forall_forall in P4. specialize (P4 v Hk).
  unfold get_u32, get_force_u32. rewrite Ht, Hd, He.
  unfold integer_type in P3. destruct (f_typ f =? 1) eqn:E1.
  { replace (f_typ f) with 1 in * by lia. cbn [type_size] in *. apply (get_at big); [rewrite Z.mul_1_r in A; exact A|lia]. }
  destruct ((f_typ f =? 3) || (f_typ f =? 8)) eqn:E2.
  { assert (S : type_size (f_typ f) = 2) by (destruct (f_typ f =? 3) eqn:E; [replace (f_typ f) with 3 by lia|replace (f_typ f) with 8 by lia]; reflexivity).
    rewrite S in *. apply ru16_at; [exact A|lia]. }
  replace ((f_typ f =? 4) || (f_typ f =? 7) || (f_typ f =? 9) || (f_typ f =? 13)) with true by lia.
  assert (S : type_size (f_typ f) = 4) by (destruct (f_typ f =? 4) eqn:E; [replace (f_typ f) with 4 by lia; reflexivity|];
    destruct (f_typ f =? 9) eqn:E'; [replace (f_typ f) with 9 by lia; reflexivity|]; replace (f_typ f) with 13 by lia; reflexivity).
  rewrite S in *. apply ru32_at; [exact A|lia].
Qed.

Lemma entry_at : forall big buf o pos parent f, 0 <= f_tag f < 65536 -> 1 <= f_typ f <= 13 -> zlen buf < 4294967296 -> 
  at_pos buf o (field_entry big pos f) -> at_pos buf pos (if inline big f then [] else field_data big f) -> 0 <= pos ->
  exists en, entry_new buf o 0 parent big = Ok en /\ holds big f en.
Proof.
  intros big buf o pos parent f T2 Q1 Hlen H1 H2 Hpos.
  pose proof (type_size_pos _ Q1) as Q3. destruct (datashift_size _ Q1) as [D1 D2].
  assert (Ho : 0 <= o) by (destruct H1 as (x & y & _ & <-); unfold zlen; lia).
  unfold field_entry in H1. apply at_app in H1. destruct H1 as [A1 H1]. apply at_app in H1. destruct H1 as [A2 H1]. apply at_app in H1. destruct H1 as [A3 A4].
  rewrite !zlen_bytes_of in *. pose proof (field_data_length big f ltac:(lia)) as L. unfold inline in *. fold (zlen (field_data big f)) in *. fold (zlen (f_vals f)) in *.
  assert (Hin : at_pos buf (if zlen (field_data big f) <=? 4 then o + 8 else pos) (field_data big f)).
  { destruct (zlen (field_data big f) <=? 4) eqn:I; [|exact H2].
    replace (o + Z.of_nat 2 + Z.of_nat 2 + Z.of_nat 4) with (o + 8) in A4 by lia.
    rewrite firstn_app, firstn_all2 in A4 by (unfold zlen in I; lia). apply at_app in A4. apply A4. }
  assert (Hcnt : zlen (field_data big f) < 4294967296).
  { destruct Hin as (x & y & E & _). apply (f_equal zlen) in E. rewrite !zlen_app in E. pose proof (zlen_nonneg x). pose proof (zlen_nonneg y). lia. }
  pose proof (zlen_nonneg (f_vals f)) as Hv.
  unfold entry_new. rewrite (ru16_at _ _ _ _ A1) by lia. cbn [bind].
  replace (o + 2) with (o + Z.of_nat 2) by lia. rewrite (ru16_at _ _ _ _ A2) by lia. cbn [bind].
  replace (o + 4) with (o + Z.of_nat 2 + Z.of_nat 2) by lia. rewrite (ru32_at _ _ _ _ A3) by nia. cbn [bind]. cbv zeta.
  replace ((f_typ f =? 0) || (13 <? f_typ f)) with false by lia. rewrite Z.shiftl_mul_pow2, D1, <- L by lia.
  assert (Hd : (if zlen (field_data big f) <=? 4 then Ok (o + 8) else o0 <- ru32 big buf (o + 8);; usub o0 0) =
    Ok (if zlen (field_data big f) <=? 4 then o + 8 else pos)).
  { destruct (zlen (field_data big f) <=? 4); [reflexivity|].
    assert (Hp : pos < 4294967296) by (destruct H2 as (x & y & E & <-); apply (f_equal zlen) in E; rewrite !zlen_app in E; pose proof (zlen_nonneg y); pose proof (zlen_nonneg (field_data big f)); lia).
    replace (o + 8) with (o + Z.of_nat 2 + Z.of_nat 2 + Z.of_nat 4) by lia. rewrite (ru32_at _ _ _ _ A4) by lia. cbn [bind].
    rewrite usub_ok by p2lia. f_equal. lia. }
  rewrite Hd. cbn [bind]. set (d := if zlen (field_data big f) <=? 4 then o + 8 else pos) in *.
  assert (Hdr : 0 <= d /\ d + zlen (field_data big f) <= zlen buf).
  { destruct Hin as (x & y & E & <-). apply (f_equal zlen) in E. rewrite !zlen_app in E. pose proof (zlen_nonneg x). pose proof (zlen_nonneg y). lia. }
  unfold uadd. rewrite arith_u_ok by (pose proof (zlen_nonneg (field_data big f)); p2lia). cbn [bind].
  rewrite (at_slice _ _ _ _ Hin eq_refl). cbn [bind]. eexists. split; [reflexivity|]. split; [|split; [|split; [|split]]]; reflexivity.
Qed.

Lemma insert_new : forall {A} (m : list (Z * A)) k v, ~ In k (map fst m) -> insert m k v = m ++ [(k, v)].
Proof.
  induction m as [|[a b] t IH]; intros k v H; cbn [insert map fst In] in *; [reflexivity|].
  destruct (a =? k) eqn:E; [destruct H; left; lia|]. cbn [app]. f_equal. apply IH. intros G. apply H. right. exact G.
Qed.

Definition stored (big : bool) (f : field) (p : Z * entry) : Prop := fst p = f_tag f /\ holds big f (snd p).
Definition step (deeper : option parser) (big : bool) (buf : list Z) (base : Z) : Z -> list (Z * entry) * list ifd -> res (list (Z * entry) * list ifd) :=
  fun i st =>
      let entry_offset := base + 2 + i * 12 in
      tag <- ru16 big buf entry_offset ;;
      if negb (known_tag tag) then Ok st else
      en <- entry_new buf entry_offset 0 base big ;;
      if is_subifd_tag (e_tag en) then
        match deeper with
        | None => Ok st
        | Some parse =>
            rfold (fun i st => off <- get_u32 en i ;; add_sub (parse buf off 0 0 big) en st)
              (zrange 0 (e_count en)) st
        end
      else if e_tag en =? T_Makernote then
        match deeper with
        | None => Ok st
        | Some parse => add_sub (makernote parse buf (e_doffset en) 0 big) en st
        end
      else let '(entries, subs) := st in Ok (insert entries (e_tag en) en, subs).
Lemma body_step : forall deeper big buf base, ifd_body deeper buf base 0 0 big =
  (num <- ru16 big buf base ;;
   if 4000 <? num then Err "too many entries in IFD"%string else
   '(entries, subs) <- rfold (step deeper big buf base) (zrange 0 num) ([], []) ;;
   next <- ru32 big buf (base + (2 + num * 12)) ;;
   Ok (mkifd entries subs next 0 big)).
Proof. reflexivity. Qed.
Lemma fields_at : forall deeper big buf base fs i n st pos, Forall kept_field fs -> zlen buf < 4294967296 ->
  at_pos buf (base + 2 + i * 12) (field_entries big pos fs) -> at_pos buf pos (outside_data big fs) -> 0 <= pos -> n = i + zlen fs ->
  NoDup (map fst (fst st) ++ map f_tag fs) ->
  exists es, Forall2 (stored big) fs es /\
  rfold (step deeper big buf base)
    (zrange i n) st = Ok (fst st ++ es, snd st).
Proof.
  intros deeper big buf base. induction fs as [|f fs IH]; intros i n st pos Hp Hlen H1 H2 Hpos Hn Hnd.
  - exists []. split; [constructor|]. rewrite zlen_nil in Hn. rewrite zrange_empty by lia. cbn [rfold]. rewrite app_nil_r. destruct st; reflexivity.
  - rewrite zlen_cons in Hn. pose proof (zlen_nonneg fs) as Hfs. rewrite (zrange_cons i n) by lia. cbn [rfold]. unfold step at 1. cbv zeta.
    cbn [field_entries] in H1. apply at_app in H1. destruct H1 as [A1 A2].
    unfold outside_data in H2. cbn [flat_map] in H2. fold (outside_data big fs) in H2. apply at_app in H2. destruct H2 as [B1 B2].
    pose proof (Forall_inv Hp) as Hf. destruct (kept_tag f Hf) as (T1 & T2 & T3 & T4).
    destruct (entry_at big buf _ pos base f T2 (proj2 (proj2 Hf)) Hlen A1 B1 Hpos) as [en [En Hen]].
    assert (Etag : ru16 big buf (base + 2 + i * 12) = Ok (f_tag f)) by (apply ru16_at; [|lia]; unfold field_entry in A1; apply at_app in A1; apply A1).
    rewrite Etag. cbn [bind]. rewrite T1. cbn [negb]. rewrite En. cbn [bind]. destruct Hen as (E1 & Hen'). rewrite E1, T3, T4.
    destruct st as [ents subs]. cbn [fst snd] in *. cbn [bind].
    assert (Hnew : ~ In (f_tag f) (map fst ents)).
    { intros G. apply NoDup_remove_2 in Hnd. apply Hnd. apply in_or_app. left. exact G. }
    rewrite insert_new by exact Hnew.
    assert (Len12 : zlen (field_entry big pos f) = 12).
    { unfold field_entry. rewrite !zlen_app, !zlen_bytes_of. destruct (inline big f); [|rewrite zlen_bytes_of; reflexivity].
      rewrite zlen_firstn, zlen_app. pose proof (zlen_nonneg (field_data big f)). unfold zlen at 2. cbn [length]. lia. }
    destruct (IH (i + 1) n (ents ++ [(f_tag f, en)], subs) (if inline big f then pos else pos + zlen (field_data big f)) (Forall_inv_tail Hp) Hlen) as [es [S1 S2]].
    + rewrite Len12 in A2. replace (base + 2 + (i + 1) * 12) with (base + 2 + i * 12 + 12) by lia. exact A2.
    + destruct (inline big f); [rewrite zlen_nil, Z.add_0_r in B2|]; exact B2.
    + destruct (inline big f); [exact Hpos|]. pose proof (zlen_nonneg (field_data big f)). lia.
    + lia.
    + cbn [fst]. rewrite map_app. cbn [map fst]. rewrite <- app_assoc. exact Hnd.
    + exists ((f_tag f, en) :: es). split; [constructor; [split; [reflexivity|split; [exact E1|exact Hen']]|exact S1]|].
      cbn [fst snd] in S2. rewrite <- app_assoc in S2. exact S2.
Qed.

Lemma ifd_chain_step : forall n buf offset next e subs, ifd_chain (S n) buf offset next e subs =
  (inner <- slice_from buf offset ;;
   i <- ifd_levels 10 inner next 0 offset e ;;
   if i_next i =? 0 then Ok (subs ++ [i]) else ifd_chain n buf offset (i_next i) e (subs ++ [i])).
Proof. reflexivity. Qed.
(** The parts of the written file. *)
Lemma file_parts : forall big fs tail, zlen fs <= 4000 -> let buf := tiff_file big fs ++ tail in
  (forall r, ifd_levels 10 buf 8 0 0 big = Ok r -> i_next r = 0 -> ifd_new_file buf = Ok (mkifd [] [r] 0 0 big)) /\
  ru16 big buf 8 = Ok (zlen fs) /\ at_pos buf 10 (field_entries big (8 + 2 + 12 * zlen fs + 4) fs) /\
  ru32 big buf (8 + (2 + zlen fs * 12)) = Ok 0 /\ at_pos buf (8 + 2 + 12 * zlen fs + 4) (outside_data big fs).
Proof.
  intros big fs tail Hn buf.
  assert (HA : at_pos buf 0 (tiff_file big fs)) by (exists [], tail; split; reflexivity).
  unfold tiff_file in HA. rewrite !app_assoc in HA. apply at_app in HA. destruct HA as [HA HD].
  set (hd := ((if big then [77; 77] else [73; 73]) ++ bytes_of big 2 42) ++ bytes_of big 4 8) in *.
  assert (Lh : zlen hd = 8) by (destruct big; reflexivity). rewrite Lh in HD. cbn [Z.add] in HD.
  assert (Hf : at_is buf 0 W_FUJIFILM = Ok false).
  { unfold at_is. rewrite (at_slice _ _ _ _ HA) by (rewrite Lh; reflexivity). destruct big; reflexivity. }
  assert (Hmain : forall r, ifd_levels 10 buf 8 0 0 big = Ok r -> i_next r = 0 -> ifd_new_file buf = Ok (mkifd [] [r] 0 0 big)).
  { intros r Hr Hrn.
  unfold ifd_new_file. rewrite Hf. cbn [bind].
  unfold ifd_new_root. unfold hd in HA. apply at_app in HA. destruct HA as [HA1 HA3]. apply at_app in HA1. destruct HA1 as [HA1 HA2].
  assert (Em : LEu16 buf 0 = Ok (if big then 0x4d4d else 0x4949)).
  { unfold LEu16. rewrite (at_slice _ _ _ _ HA1) by (destruct big; reflexivity). destruct big; reflexivity. }
  rewrite Em. cbn [bind].
  replace (if (if big then 19789 else 18761) =? 18761 then Ok LITTLE_ENDIAN else if (if big then 19789 else 18761) =? 19789 then Ok BIG_ENDIAN else Err "TIFF: don't know marker"%string)
    with (Ok big) by (destruct big; reflexivity).
  cbn [bind]. replace (zlen ((if big then [77; 77] else [73; 73]) ++ bytes_of big 2 42)) with 4 in HA3 by (destruct big; reflexivity).
  cbn [Z.add] in HA3. replace (0 + 4) with 4 by lia. rewrite (ru32_at _ _ _ _ HA3) by lia. cbn [bind].

  rewrite ifd_chain_step. unfold slice_from. replace ((0 <=? 0) && (0 <=? zlen buf)) with true by (pose proof (zlen_nonneg buf); lia).
  change (skipn (Z.to_nat 0) buf) with buf. cbn [bind]. rewrite Hr. cbn [bind]. rewrite Hrn. reflexivity. }
  unfold directory in HD. cbv zeta in HD. fold (zlen fs) in HD.
  apply at_app in HD. destruct HD as [D1 HD]. apply at_app in HD. destruct HD as [D2 HD]. apply at_app in HD. destruct HD as [D3 D4].
  rewrite !zlen_bytes_of in *. pose proof (zlen_nonneg fs) as Hfs.
  assert (Le : forall p fs, zlen (field_entries big p fs) = 12 * zlen fs).
  { clear. intros p fs. revert p. induction fs as [|f t IH]; intros p; [reflexivity|]. cbn [field_entries]. rewrite zlen_app, IH, zlen_cons.
    unfold field_entry. rewrite !zlen_app, !zlen_bytes_of. destruct (inline big f); [|rewrite zlen_bytes_of; lia].
    rewrite zlen_firstn, zlen_app. pose proof (zlen_nonneg (field_data big f)). unfold zlen at 2. cbn [length]. lia. }
  rewrite Le in D3, D4.
  split; [exact Hmain|]. split; [apply ru16_at; [exact D1|lia]|]. split; [exact D2|]. split.
  - replace (8 + (2 + zlen fs * 12)) with (8 + Z.of_nat 2 + 12 * zlen fs) by lia. apply ru32_at; [exact D3|lia].
  - replace (8 + 2 + 12 * zlen fs + 4) with (8 + Z.of_nat 2 + 12 * zlen fs + Z.of_nat 4) by lia. exact D4.
Qed.
Lemma parse_file : forall big fs tail, Forall kept_field fs -> NoDup (map f_tag fs) -> zlen fs <= 4000 ->
  zlen (tiff_file big fs ++ tail) < 4294967296 ->
  exists es, Forall2 (stored big) fs es /\ ifd_new_file (tiff_file big fs ++ tail) = Ok (mkifd [] [mkifd es [] 0 0 big] 0 0 big).
Proof.
  intros big fs tail Hp Hnd Hn Hlen. destruct (file_parts big fs tail Hn) as (Hmain & D1 & D2 & D3 & D4).
  set (buf := tiff_file big fs ++ tail) in *. pose proof (zlen_nonneg fs) as Hfs.
  assert (Hdp : exists dp, ifd_levels 10 buf 8 0 0 big = ifd_body dp buf 8 0 0 big) by (eexists; reflexivity). destruct Hdp as [dp Hdp].
  destruct (fields_at dp big buf 8 fs 0 (zlen fs) ([], []) (8 + 2 + 12 * zlen fs + 4))
    as [es [S1 S2]]; [exact Hp|exact Hlen|exact D2|exact D4|lia|lia|exact Hnd|].
  exists es. split; [exact S1|]. apply Hmain; [|reflexivity]. rewrite Hdp, body_step, D1. cbn [bind].
  replace (4000 <? zlen fs) with false by lia. cbn [fst snd app] in S2. rewrite S2. cbn [bind]. rewrite D3. reflexivity.
Qed.

Lemma lookup_stored : forall big fs es tag, Forall2 (stored big) fs es -> NoDup (map f_tag fs) ->
  (forall f, In f fs -> f_tag f = tag -> exists en, lookup es tag = Some en /\ holds big f en) /\
  (~ In tag (map f_tag fs) -> lookup es tag = None).
Proof.
  intros big fs es tag H. induction H as [|f [k en] fs es [H1 H2] H IH]; intros Hnd.
  - split; [intros f []|reflexivity].
  - cbn [map] in *. apply NoDup_cons_iff in Hnd. destruct Hnd as [N1 N2]. destruct (IH N2) as [I1 I2]. cbn [fst snd] in *. subst k. cbn [lookup]. split.
    + intros g [<-|Hg] Hgt.
      * exists en. replace (f_tag f =? tag) with true by lia. auto.
      * destruct (f_tag f =? tag) eqn:E; [|auto]. destruct N1. replace (f_tag f) with (f_tag g) by lia. apply in_map. exact Hg.
    + intros Hn. destruct (f_tag f =? tag) eqn:E; [destruct Hn; left; lia|]. apply I2. intros G. apply Hn. right. exact G.
Qed.

Theorem round_trip : forall big fs tail, Forall plain_field fs -> NoDup (map f_tag fs) -> Z.of_nat (length fs) <= 4000 ->
  Z.of_nat (length (tiff_file big fs ++ tail)) < 2 ^ 32 ->
  exists root, ifd_new_file (tiff_file big fs ++ tail) = Ok root /\
  (forall f, In f fs -> exists en, find_entry root (f_tag f) = Some en /\ e_typ en = f_typ f /\
     e_count en = Z.of_nat (length (f_vals f)) /\
     forall k v, nth_error (f_vals f) k = Some v -> get_u32 en (Z.of_nat k) = Ok v) /\
  (forall tag, ~ In tag (map f_tag fs) -> find_entry root tag = None).
Proof.
  intros big fs tail Hp Hnd Hn Hlen. destruct (parse_file big fs tail (Forall_impl _ plain_kept Hp) Hnd Hn Hlen) as [es [S1 S2]].
  exists (mkifd [] [mkifd es [] 0 0 big] 0 0 big). split; [exact S2|]. split.
  - intros f Hf. destruct (lookup_stored big fs es (f_tag f) S1 Hnd) as [L _]. destruct (L f Hf eq_refl) as [en [E1 E2]].
    exists en. cbn [find_entry lookup]. rewrite E1. split; [reflexivity|]. pose proof E2 as (_ & T & C & _). split; [exact T|split; [exact C|]].
    intros k v Hk. rewrite Forall_forall in Hp. destruct (Hp f Hf) as (_ & _ & P3 & P4). eapply get_u32_holds; [exact P3|exact P4|exact E2|exact Hk].
  - intros tag Ht. destruct (lookup_stored big fs es tag S1 Hnd) as [_ L]. cbn [find_entry lookup]. rewrite L by exact Ht. reflexivity.
Qed.
End Any.
