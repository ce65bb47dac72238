(** Reading nested directories (C59). *)
From Coq Require Import String ZArith List Bool Lia ZifyBool ZifyNat.
From Verif Require Import Base Bytes Tiff Spec_Bits Spec_Tiff Spec_File Spec_Tree P_Base P_Bits P_Tiff3 P_Tiff5.
Import ListNotations.
Local Open Scope Z_scope.

Lemma at_placed : forall file pad pos s, placed file pos s -> at_pos (file ++ pad) pos s.
Proof. intros file pad pos s (b & a & -> & H). exists b, (a ++ pad). split; [rewrite <- !app_assoc; reflexivity|exact H]. Qed.
Lemma placed_range : forall file pos s, placed file pos s -> 0 <= pos /\ pos + zlen s <= zlen file.
Proof. intros file pos s (b & a & -> & H). unfold zlen. rewrite !app_length. lia. Qed.
Lemma at_len : forall buf pos s, at_pos buf pos s -> 0 <= pos /\ pos + zlen s <= zlen buf.
Proof. intros buf pos s (b & a & -> & H). unfold zlen in *. rewrite !app_length. lia. Qed.

Section Any.
Context {M : Mode}.
(** As [entry_at], with the place of the value *)
Lemma entry_placed : forall big buf o pos parent f, 0 <= f_tag f < 65536 -> 1 <= f_typ f <= 13 -> zlen buf < 4294967296 -> 
  at_pos buf o (field_entry big pos f) -> (inline big f = false -> at_pos buf pos (field_data big f)) ->
  exists en, entry_new buf o 0 parent big = Ok en /\ holds big f en /\ e_doffset en = if inline big f then o + 8 else pos.
Proof.
  intros big buf o pos parent f T2 Q1 Hlen H1 H2.
  pose proof (type_size_pos _ Q1) as Q3. destruct (datashift_size _ Q1) as [D1 D2].
  assert (Ho : 0 <= o) by (destruct H1 as (x & y & _ & <-); unfold zlen; lia).
  unfold field_entry in H1. apply at_app in H1. destruct H1 as [A1 H1]. apply at_app in H1. destruct H1 as [A2 H1]. apply at_app in H1. destruct H1 as [A3 A4].
  rewrite !zlen_bytes_of in *. pose proof (field_data_length big f ltac:(lia)) as L. unfold inline in *. fold (zlen (field_data big f)) in *. fold (zlen (f_vals f)) in *.
  assert (Hin : at_pos buf (if zlen (field_data big f) <=? 4 then o + 8 else pos) (field_data big f)).
  { destruct (zlen (field_data big f) <=? 4) eqn:I; [|exact (H2 eq_refl)].
    replace (o + Z.of_nat 2 + Z.of_nat 2 + Z.of_nat 4) with (o + 8) in A4 by lia.
    rewrite firstn_app, firstn_all2 in A4 by (unfold zlen in I; lia). apply at_app in A4. apply A4. }
  pose proof (at_len _ _ _ Hin) as Hdr. assert (Hcnt : zlen (field_data big f) < 4294967296) by lia.
  pose proof (zlen_nonneg (f_vals f)) as Hv.
  unfold entry_new. rewrite (ru16_at _ _ _ _ A1) by lia. cbn [bind].
  replace (o + 2) with (o + Z.of_nat 2) by lia. rewrite (ru16_at _ _ _ _ A2) by lia. cbn [bind].
  replace (o + 4) with (o + Z.of_nat 2 + Z.of_nat 2) by lia. rewrite (ru32_at _ _ _ _ A3) by nia. cbn [bind]. cbv zeta.
  replace ((f_typ f =? 0) || (13 <? f_typ f)) with false by lia. rewrite Z.shiftl_mul_pow2, D1, <- L by lia.
  assert (Hd : (if zlen (field_data big f) <=? 4 then Ok (o + 8) else o0 <- ru32 big buf (o + 8);; usub o0 0) =
    Ok (if zlen (field_data big f) <=? 4 then o + 8 else pos)).
  { destruct (zlen (field_data big f) <=? 4) eqn:I; [reflexivity|].
    replace (o + 8) with (o + Z.of_nat 2 + Z.of_nat 2 + Z.of_nat 4) by lia. rewrite (ru32_at _ _ _ _ A4) by lia. cbn [bind].
    rewrite usub_ok by p2lia. f_equal. lia. }
  rewrite Hd. cbn [bind]. set (d := if zlen (field_data big f) <=? 4 then o + 8 else pos) in *.
  unfold uadd. rewrite arith_u_ok by (pose proof (zlen_nonneg (field_data big f)); p2lia). cbn [bind].
  rewrite (at_slice _ _ _ _ Hin eq_refl). cbn [bind]. eexists. split; [reflexivity|]. split; [|reflexivity]. split; [|split; [|split; [|split]]]; reflexivity.
Qed.

(** ** Maker's notes *)
Lemma at_is_ok : forall buf a word s, slice buf a (a + zlen word) = Ok s -> at_is buf a word = Ok (same_bytes s word).
Proof. intros buf a word s H. unfold at_is. rewrite H. reflexivity. Qed.
Lemma same_refl : forall w, same_bytes w w = true.
Proof. induction w as [|x w IH]; [reflexivity|]. cbn [same_bytes]. rewrite Z.eqb_refl. exact IH. Qed.
Lemma at_skip : forall buf pos s, at_pos buf pos s -> exists rest, skipn (Z.to_nat pos) buf = s ++ rest.
Proof.
  intros buf pos s (b & a & -> & H). exists a. unfold zlen in H. rewrite skipn_app, skipn_all2 by lia. replace (Z.to_nat pos - length b)%nat with 0%nat by lia. reflexivity.
Qed.
Lemma is_at : forall data k word, 0 <= k -> k + zlen word <= zlen data -> at_is data k word = Ok (same_bytes (firstn (length word) (skipn (Z.to_nat k) data)) word).
Proof. intros data k word Hk Hl. apply at_is_ok. rewrite slice_ok by (pose proof (zlen_nonneg word); lia). replace (k + zlen word - k) with (zlen word) by lia. unfold zlen. rewrite Nat2Z.id. reflexivity. Qed.
(** The two bytes of a count are no heading. *)
Definition count_bytes (x y : Z) : Prop := x <= 15 \/ y <= 15.
Lemma no_word : forall x y s c d w, count_bytes x y -> 15 < c -> 15 < d -> same_bytes (x :: y :: s) (c :: d :: w) = false.
Proof. intros x y s c d w [H|H] Hc Hd; cbn [same_bytes]; [replace (x =? c) with false by lia; reflexivity|]. replace (y =? d) with false by lia. apply andb_false_r. Qed.
Lemma count_ok : forall big n, 0 <= n <= 4000 -> exists x y, bytes_of big 2 n = [x; y] /\ count_bytes x y.
Proof.
  intros big n Hn. unfold bytes_of, little. assert (n / 256 <= 15) by (apply Z.lt_succ_r, Z.div_lt_upper_bound; lia). assert (0 <= n / 256) by (apply Z.div_pos; lia).
  assert (n / 256 mod 256 <= 15) by (rewrite Z.mod_small by lia; lia).
  destruct big; cbn [rev app]; do 2 eexists; (split; [reflexivity|]); [left|right]; assumption.
Qed.
Ltac is_here := rewrite is_at by (first [lia|unfold zlen; cbn [length]; lia]).
Ltac no_heading H := repeat (is_here; cbn [length firstn skipn Z.to_nat Pos.to_nat Pos.iter_op Nat.add]; rewrite (no_word _ _ _ _ _ _ H) by lia; cbn [bind]).
Lemma skip_from : forall (buf : list Z) pos, 0 <= pos <= zlen buf -> slice_from buf pos = Ok (skipn (Z.to_nat pos) buf).
Proof. intros buf pos H. unfold slice_from. replace ((0 <=? pos) && (pos <=? zlen buf)) with true by lia. reflexivity. Qed.
Lemma explicit : forall (l : list Z) n, (n <= length l)%nat -> exists a b, l = a ++ b /\ length a = n.
Proof. intros l n H. exists (firstn n l), (skipn n l). split; [symmetry; apply firstn_skipn|apply firstn_length_le; exact H]. Qed.

Lemma plain_note : forall parse big data buf pos x y c1 c2 c3 c4 c5 c6 rest, 0 <= pos <= zlen buf -> skipn (Z.to_nat pos) buf = data -> data = x :: y :: c1 :: c2 :: c3 :: c4 :: c5 :: c6 :: rest ->
  count_bytes x y -> makernote parse buf pos 0 big = parse buf pos 0 0 big.
Proof.
  intros parse big data buf pos x y c1 c2 c3 c4 c5 c6 rest Hp Es -> Hc. unfold makernote. rewrite skip_from by exact Hp. cbn [bind]. rewrite Es.
  unfold W_OLYMP, W_OLYMPUS, W_EPSON, W_AOC, W_PENTAX, W_NIKON, W_II, W_MM. no_heading Hc. rewrite Z.add_0_r. reflexivity.
Qed.

Ltac places := change (Z.to_nat 4) with 4%nat; change (Z.to_nat 6) with 6%nat; change (Z.to_nat 8) with 8%nat; change (Z.to_nat 10) with 10%nat; change (Z.to_nat 12) with 12%nat.
Ltac heading := is_here; places; cbn [length firstn skipn Z.to_nat same_bytes Z.eqb Pos.eqb andb bind]; cbv zeta.
Ltac counts H := is_here; places; cbn [length firstn skipn]; rewrite (no_word _ _ _ _ _ _ H) by lia; cbn [bind].
Ltac words := unfold W_OLYMP, W_OLYMPUS, W_EPSON, W_AOC, W_PENTAX, W_NIKON, W_II, W_MM.
Lemma nikon_heading : forall parse big buf pos a b c rest, 0 <= pos <= zlen buf -> pos + 10 <= zlen buf -> skipn (Z.to_nat pos) buf = [78; 105; 107; 111; 110; 0; 2; a; b; c] ++ order_mark big ++ rest ->
  makernote parse buf pos 0 big = parse (skipn (Z.to_nat (pos + 10)) buf) 8 0 0 big.
Proof.
  intros parse big buf pos a b c rest Hp Hq Es. unfold makernote. rewrite skip_from by exact Hp. cbn [bind]. rewrite Es. words. cbn [app].
  destruct big; cbn [order_mark app]; do 6 heading; rewrite skip_from by lia; cbn [bind]; replace (0 + 10 + pos) with (pos + 10) by lia; reflexivity.
Qed.
Lemma pentax_note : forall parse big buf pos a b rest, 0 <= pos <= zlen buf -> skipn (Z.to_nat pos) buf = [80; 69; 78; 84; 65; 88; a; b] ++ order_mark big ++ rest ->
  makernote parse buf pos 0 big = parse (skipn (Z.to_nat pos) buf) 10 0 0 big.
Proof.
  intros parse big buf pos a b rest Hp Es. unfold makernote. rewrite skip_from by exact Hp. cbn [bind]. rewrite Es. words. cbn [app].
  destruct big; cbn [order_mark app]; do 5 heading; reflexivity.
Qed.
Lemma aoc_note : forall parse big buf pos x y rest, 0 <= pos <= zlen buf -> count_bytes x y -> skipn (Z.to_nat pos) buf = [65; 79; 67; 0] ++ order_mark big ++ x :: y :: rest ->
  makernote parse buf pos 0 big = parse buf (pos + 6) 0 0 big.
Proof.
  intros parse big buf pos x y rest Hp Hc Es. unfold makernote. rewrite skip_from by exact Hp. cbn [bind]. rewrite Es. words. cbn [app].
  destruct big; cbn [order_mark app].
  - do 5 heading. change (0 + 4) with 4. do 2 heading. reflexivity.
  - do 5 heading. change (0 + 4) with 4. heading. change (4 + 2) with 6. counts Hc. reflexivity.
Qed.
Lemma olympus_note : forall parse big buf pos a b c d e x y rest, 0 <= pos <= zlen buf -> count_bytes x y -> skipn (Z.to_nat pos) buf = [79; 76; 89; 77; 80; 85; 83; a; b; c; d; e] ++ x :: y :: rest ->
  makernote parse buf pos 0 big = parse buf (pos + 12) 0 0 big.
Proof.
  intros parse big buf pos a b c d e x y rest Hp Hc Es. unfold makernote. rewrite skip_from by exact Hp. cbn [bind]. rewrite Es. words. cbn [app].
  do 6 heading. do 2 counts Hc. reflexivity.
Qed.
Lemma olymp_note : forall parse big buf pos a b c x y rest, 0 <= pos <= zlen buf -> (a, b) <> (85, 83) -> count_bytes x y -> skipn (Z.to_nat pos) buf = [79; 76; 89; 77; 80; a; b; c] ++ x :: y :: rest ->
  makernote parse buf pos 0 big = parse buf (pos + 8) 0 0 big.
Proof.
  intros parse big buf pos a b c x y rest Hp Hab Hc Es. unfold makernote. rewrite skip_from by exact Hp. cbn [bind]. rewrite Es. words. cbn [app].
  do 2 heading. replace ((a =? 85) && ((b =? 83) && true)) with false.
  2:{ symmetry. destruct (Z.eqb_spec a 85) as [->|]; [|reflexivity]. destruct (Z.eqb_spec b 83) as [->|]; [congruence|reflexivity]. }
  cbn [bind]. do 4 heading. do 2 counts Hc. reflexivity.
Qed.

Lemma at_join : forall buf pos s t, at_pos buf pos s -> at_pos buf (pos + zlen s) t -> at_pos buf pos (s ++ t).
Proof.
  intros buf pos s t (b & a & E & H) (b' & a' & E' & H'). exists b, a'. split; [|exact H].
  assert (G : b' = b ++ s /\ t ++ a' = a); [|destruct G as [-> _]; rewrite <- !app_assoc in *; exact E'].
  rewrite E, app_assoc in E'. symmetry in E'. assert (L : length b' = length (b ++ s)) by (rewrite app_length; unfold zlen in *; lia).
  revert E' L. generalize (b ++ s) (t ++ a'). clear. intros l m. revert l. induction b' as [|x b IH]; intros [|y l] E L; cbn [app length] in *; try discriminate L; [auto|].
  injection E as <- E. destruct (IH l E) as [<- <-]; [lia|]. auto.
Qed.
Lemma note_read : forall parse big file pad pos to n, note big file pos to -> zlen pad = 16 -> 0 <= n <= 4000 -> 0 <= pos <= zlen file ->
  placed (skipn (Z.to_nat (fst to)) file) (snd to) (bytes_of big 2 n) ->
  makernote parse (file ++ pad) pos 0 big = parse (skipn (Z.to_nat (fst to)) (file ++ pad)) (snd to) 0 0 big.
Proof.
  intros parse big file pad pos to n Hn Hpad Hr Hp Hc. destruct (count_ok big n Hr) as (x & y & Ec & Hxy). rewrite Ec in Hc.
  assert (Hlen : zlen (file ++ pad) = zlen file + 16) by (rewrite zlen_app; lia). assert (Hpb : 0 <= pos <= zlen (file ++ pad)) by lia.
  inversion Hn as [E|a b c Ht E|a b Ht E|Ht E|a b c d e Ht E|a b c Ht Hab E]; subst to; cbn [fst snd] in *; try (change (skipn (Z.to_nat 0) file) with file in Hc; change (skipn (Z.to_nat 0) (file ++ pad)) with (file ++ pad));
    apply (at_placed _ pad) in Hc; try (unfold text_at in Ht; apply (at_placed _ pad) in Ht).
  - apply at_skip in Hc. destruct Hc as [rest Es]. assert (L : zlen rest >= 6).
    { apply (f_equal zlen) in Es. rewrite zlen_app in Es. unfold zlen in *. rewrite skipn_length in Es. rewrite app_length in *. cbn [length] in *.
      destruct (le_lt_dec (Z.to_nat pos + 8) (length file + length pad)); lia. }
    destruct rest as [|c1 [|c2 [|c3 [|c4 [|c5 [|c6 rest]]]]]]; unfold zlen in L; cbn [length] in L; try lia.
    apply (plain_note parse big _ (file ++ pad) pos x y c1 c2 c3 c4 c5 c6 rest Hpb eq_refl Es Hxy).
  - pose proof (at_len _ _ _ Ht) as Hl. apply at_skip in Ht. destruct Ht as [rest Es]. apply (nikon_heading parse big (file ++ pad) pos a b c rest Hpb).
    + rewrite !zlen_app in Hl. destruct big; change (zlen (codes_of "Nikon")) with 5 in Hl; unfold zlen in *; rewrite !app_length in *; cbn [length order_mark] in Hl; lia.
    + rewrite Es. change (codes_of "Nikon") with [78; 105; 107; 111; 110]. destruct big; reflexivity.
  - apply at_skip in Ht. destruct Ht as [rest Es]. apply (pentax_note parse big (file ++ pad) pos a b rest Hpb). rewrite Es. change (codes_of "PENTAX") with [80; 69; 78; 84; 65; 88]. destruct big; reflexivity.
  - assert (Hj := at_join _ _ _ [x; y] Ht). replace (zlen (codes_of "AOC" ++ [0] ++ order_mark big)) with 6 in Hj by (destruct big; reflexivity).
    specialize (Hj Hc). apply at_skip in Hj. destruct Hj as [rest Es]. apply (aoc_note parse big (file ++ pad) pos x y rest Hpb Hxy). rewrite Es. change (codes_of "AOC") with [65; 79; 67]. destruct big; reflexivity.
  - assert (Hj := at_join _ _ _ [x; y] Ht). change (zlen (codes_of "OLYMPUS" ++ [a; b; c; d; e])) with 12 in Hj.
    specialize (Hj Hc). apply at_skip in Hj. destruct Hj as [rest Es]. apply (olympus_note parse big (file ++ pad) pos a b c d e x y rest Hpb Hxy). rewrite Es. reflexivity.
  - assert (Hj := at_join _ _ _ [x; y] Ht). change (zlen (codes_of "OLYMP" ++ [a; b; c])) with 8 in Hj.
    specialize (Hj Hc). apply at_skip in Hj. destruct Hj as [rest Es]. apply (olymp_note parse big (file ++ pad) pos a b c x y rest Hpb Hab Hxy). rewrite Es. reflexivity.
Qed.

(** ** The fields of a directory *)
Definition sub_ok (parse : parser) (big : bool) (file pad : list Z) (to : Z * Z) (i : ifd) : Prop :=
  (exists n, 0 <= n <= 4000 /\ placed (skipn (Z.to_nat (fst to)) file) (snd to) (bytes_of big 2 n)) /\
  parse (skipn (Z.to_nat (fst to)) (file ++ pad)) (snd to) 0 0 big = Ok i.
Definition keep (f : field) : bool := known_tag (f_tag f) && negb (is_pointer (f_tag f)) && negb (f_tag f =? note_tag).
Lemma pointers_same : forall tag, is_subifd_tag tag = is_pointer tag.
Proof. intros tag. unfold is_subifd_tag, is_pointer, pointer_tags, T_SubIFDs, T_ExifIFDPointer, T_RafRawSubIFD, T_KodakIFD, T_KdcIFD. cbn [existsb]. lia. Qed.
Lemma pointer_known : forall tag, is_pointer tag = true -> known_tag tag = true.
Proof.
  intros tag H. unfold is_pointer in H. apply existsb_exists in H. destruct H as (t & Hi & E). replace tag with t by lia. unfold pointer_tags in Hi. cbn [In] in Hi.
  repeat (destruct Hi as [<-|Hi]; [reflexivity|]). destruct Hi.
Qed.
Lemma pointers_read : forall parse big file pad f en vals pre is entries subs, holds big f en -> f_typ f = 4 \/ f_typ f = 13 -> Forall (fun v => 0 <= v < 2 ^ 32) (f_vals f) -> f_vals f = pre ++ vals ->
  Forall2 (sub_ok parse big file pad) (map (fun v => (0, v)) vals) is ->
  rfold (fun i st => off <- get_u32 en i ;; add_sub (parse (file ++ pad) off 0 0 big) en st) (zrange (zlen pre) (zlen (f_vals f))) (entries, subs) = Ok (entries, subs ++ is).
Proof.
  intros parse big file pad f en. induction vals as [|v vals IH]; intros pre is entries subs Hh Ht Hv E H2; cbn [map] in H2; inversion H2 as [|? ? ? is' Hs H2']; subst.
  - rewrite E, app_nil_r. rewrite zrange_empty by lia. cbn [rfold]. rewrite app_nil_r. reflexivity.
  - rewrite zrange_cons by (rewrite E, zlen_app, zlen_cons; pose proof (zlen_nonneg vals); lia). cbn [rfold].
    change (get_u32 en (zlen pre)) with (get_u32 en (Z.of_nat (length pre))). rewrite (get_u32_holds big f en (length pre) v).
    + cbn [bind]. destruct Hs as [_ Hs]. cbn [fst snd] in Hs. change (skipn (Z.to_nat 0) (file ++ pad)) with (file ++ pad) in Hs. rewrite Hs. cbn [add_sub bind].
      replace (zlen pre + 1) with (zlen (pre ++ [v])) by (rewrite zlen_app; reflexivity). rewrite (IH (pre ++ [v]) is' entries _ Hh Ht Hv); [|rewrite <- app_assoc; exact E|exact H2'].
      rewrite <- app_assoc. reflexivity.
    + unfold integer_type. lia.
    + replace (256 ^ type_size (f_typ f)) with (2 ^ 32); [exact Hv|]. destruct Ht as [-> | ->]; reflexivity.
    + exact Hh.
    + rewrite E, nth_error_app2, Nat.sub_diag by lia. reflexivity.
Qed.
Lemma rows_read : forall deeper big file pad base rs i n entries subs is, zlen pad = 16 -> zlen (file ++ pad) < 4294967296 -> rows_written big file (base + 2 + i * 12) rs -> n = i + zlen rs ->
  match deeper with Some parse => Forall2 (sub_ok parse big file pad) (flat_map r_to rs) is | None => flat_map r_to rs = [] /\ is = [] end ->
  NoDup (map fst entries ++ map f_tag (map r_field rs)) ->
  exists es, Forall2 (stored big) (filter keep (map r_field rs)) es /\ rfold (step deeper big (file ++ pad) base) (zrange i n) (entries, subs) = Ok (entries ++ es, subs ++ is).
Proof.
  intros deeper big file pad base. induction rs as [|r rs IH]; intros i n entries subs is Hpad Hlen Hr Hn Hd Hnd.
  - exists []. split; [constructor|]. rewrite zlen_nil in Hn. rewrite zrange_empty by lia. cbn [rfold flat_map] in *. rewrite app_nil_r.
    assert (is = []) as -> by (destruct deeper; [inversion Hd; reflexivity|apply Hd]). rewrite app_nil_r. reflexivity.
  - rewrite zlen_cons in Hn. pose proof (zlen_nonneg rs) as Hrs. rewrite (zrange_cons i n) by lia. cbn [rfold]. unfold step at 1. cbv zeta.
    cbn [rows_written] in Hr. destruct Hr as [Hw Hr]. replace (base + 2 + i * 12 + 12) with (base + 2 + (i + 1) * 12) in Hr by lia.
    destruct r as [f place tos]. unfold row_written in Hw. cbn [r_field r_place r_to] in Hw. destruct Hw as (H1 & H2 & H3 & H4 & H5). change (2 ^ 16) with 65536 in H3.
    cbn [map r_field flat_map r_to filter] in *. set (o := base + 2 + i * 12) in *.
    assert (A1 := at_placed _ pad _ _ H1).
    assert (Etag : ru16 big (file ++ pad) o = Ok (f_tag f)) by (apply ru16_at; [|lia]; unfold field_entry in A1; apply at_app in A1; apply A1).
    rewrite Etag. cbn [bind].
    assert (Hnd' : NoDup (map fst entries ++ map f_tag (map r_field rs))) by (apply NoDup_remove_1 in Hnd; exact Hnd).
    destruct (entry_placed big (file ++ pad) o place base f H3 H4 Hlen A1) as (en & En & Hen & Hoff); [intros G; apply at_placed, H2, G|].
    destruct (is_pointer (f_tag f)) eqn:Ep.
    { unfold keep at 1. rewrite Ep, (pointer_known _ Ep). cbn [andb negb]. rewrite En. cbn [bind]. rewrite (proj1 Hen), pointers_same, Ep. destruct H5 as (H5 & H6 & ->).
      destruct deeper as [parse|].
      - apply Forall2_app_inv_l in Hd. destruct Hd as (is1 & is2 & D1 & D2 & ->). replace (e_count en) with (zlen (f_vals f)) by (symmetry; apply Hen).
        pose proof (pointers_read parse big file pad f en (f_vals f) [] is1 entries subs Hen H5 H6 eq_refl D1) as G. change (zlen []) with 0 in G. rewrite G. cbn [bind].
        destruct (IH (i + 1) n entries (subs ++ is1) is2 Hpad Hlen Hr ltac:(lia) D2 Hnd') as (es & S1 & S2). exists es. split; [exact S1|]. rewrite S2, <- app_assoc. reflexivity.
      - cbn [bind]. destruct Hd as [D1 D2]. apply app_eq_nil in D1. apply (IH (i + 1) n entries subs is Hpad Hlen Hr); [lia|split; [apply D1|exact D2]|exact Hnd']. }
    destruct (f_tag f =? note_tag) eqn:Em.
    { unfold keep at 1. rewrite Em. cbn [negb]. rewrite andb_false_r. replace (f_tag f) with note_tag by lia. change (known_tag note_tag) with true. cbn [negb].
      rewrite En. cbn [bind]. rewrite (proj1 Hen), pointers_same, Ep. replace (f_tag f =? T_Makernote) with true by (unfold T_Makernote, note_tag in *; lia).
      assert (Hn' : n = i + 1 + zlen rs) by lia. clear Hn. destruct H5 as (to & H5 & ->). destruct deeper as [parse|].
      - apply Forall2_app_inv_l in Hd. destruct Hd as (is1 & is2 & D1 & D2 & ->). inversion D1 as [|? i1 ? is0 ((n0 & N1 & N2) & N3) D1']; subst. inversion D1'; subst.
        rewrite Hoff, (note_read parse big file pad _ to n0 H5 Hpad N1).
        + rewrite N3. cbn [add_sub bind]. destruct (IH (i + 1) (i + 1 + zlen rs) entries (subs ++ [i1]) is2 Hpad Hlen Hr ltac:(lia) D2 Hnd') as (es & S1 & S2). exists es. split; [exact S1|]. rewrite S2, <- app_assoc. reflexivity.
        + destruct (inline big f) eqn:Ei.
          * pose proof (placed_range _ _ _ H1) as Hp. assert (L12 : zlen (field_entry big place f) = 12).
            { unfold field_entry. rewrite !zlen_app, !zlen_bytes_of. rewrite Ei. rewrite zlen_firstn, zlen_app. pose proof (zlen_nonneg (field_data big f)). unfold zlen at 2. cbn [length]. lia. }
            lia.
          * pose proof (placed_range _ _ _ (H2 eq_refl)) as Hp. pose proof (zlen_nonneg (field_data big f)). lia.
        + exact N2.
      - destruct Hd as [D1 D2]. discriminate D1. }
    subst tos. cbn [app] in Hd. unfold keep at 1. rewrite Ep, Em. cbn [negb]. rewrite !andb_true_r. destruct (known_tag (f_tag f)) eqn:Ek; cbn [negb].
    + rewrite En. cbn [bind]. rewrite (proj1 Hen), pointers_same, Ep. replace (f_tag f =? T_Makernote) with false by (unfold T_Makernote, note_tag in *; lia). cbn [bind].
      rewrite insert_new; [|intros G; apply NoDup_remove_2 in Hnd; apply Hnd, in_or_app; left; exact G].
      destruct (IH (i + 1) n (entries ++ [(f_tag f, en)]) subs is Hpad Hlen Hr ltac:(lia) Hd) as (es & S1 & S2).
      * rewrite map_app. cbn [map fst]. rewrite <- app_assoc. exact Hnd.
      * exists ((f_tag f, en) :: es). split; [constructor; [split; [reflexivity|exact Hen]|exact S1]|]. rewrite S2, <- app_assoc. reflexivity.
    + cbn [bind]. apply (IH (i + 1) n entries subs is Hpad Hlen Hr); [lia|exact Hd|exact Hnd'].
Qed.
End Any.

(** ** Directories *)
Inductive reads (big : bool) : tree -> ifd -> Prop :=
| reads_tree : forall fs subs es is next, NoDup (map f_tag fs) -> Forall2 (stored big) (values (Tree fs subs)) es -> Forall2 (reads big) subs is -> reads big (Tree fs subs) (mkifd es is next 0 big).
Section Any2.
Context {M : Mode}.
Lemma levels_body : forall n buf o b s e, ifd_levels n buf o b s e = ifd_body (match n with O => None | S l => Some (fun buf offset base start e => ifd_levels l buf offset base start e) end) buf o b s e.
Proof. intros [|n]; reflexivity. Qed.
Lemma written_read : forall levels big file pad pos next t, zlen pad = 16 -> zlen (file ++ pad) < 4294967296 -> written levels big file pos next t ->
  exists i, ifd_levels levels (file ++ pad) pos 0 0 big = Ok i /\ i_next i = next /\ reads big t i.
Proof.
  intros levels. induction levels as [|levels IH]; intros big file pad pos next [fs subs] Hpad Hlen H; cbn [written] in H; destruct H as (rs & E & Hn & Hnd & Hc & Hr & Hx & Hxr & Hs).
  - destruct Hs as [Hs ->]. destruct (rows_read None big file pad pos rs 0 (zlen rs) [] [] [] Hpad Hlen) as (es & S1 & S2).
    + replace (pos + 2 + 0 * 12) with (pos + 2) by lia. exact Hr.
    + lia.
    + auto.
    + rewrite E. exact Hnd.
    + exists (mkifd es [] next 0 big). split; [|split; [reflexivity|]].
      * rewrite levels_body, body_step. fold (zlen rs) in *. rewrite (ru16_at _ _ _ _ (at_placed _ pad _ _ Hc)) by (pose proof (zlen_nonneg rs); lia). cbn [bind].
        replace (4000 <? zlen rs) with false by lia. rewrite S2. cbn [bind app]. replace (pos + (2 + zlen rs * 12)) with (pos + 2 + 12 * zlen rs) by lia.
        rewrite (ru32_at _ _ _ _ (at_placed _ pad _ _ Hx)) by (change (2 ^ 32) with 4294967296 in Hxr; lia). reflexivity.
      * constructor; [exact Hnd|rewrite E in S1; exact S1|constructor].
  - assert (G : exists is, Forall2 (sub_ok (fun buf offset base start e => ifd_levels levels buf offset base start e) big file pad) (flat_map r_to rs) is /\ Forall2 (reads big) subs is).
    { clear - IH Hs Hpad Hlen. induction Hs as [|to s tos subs Hh Hs IHs]; [exists []; auto|]. destruct IHs as (is & I1 & I2). destruct Hh as (nx & Hf & Hw).
      destruct (IH big (skipn (Z.to_nat (fst to)) file) pad (snd to) nx s Hpad) as (i & J1 & J2 & J3).
      - unfold zlen in *. rewrite app_length in *. rewrite skipn_length. lia.
      - exact Hw.
      - exists (i :: is). split; constructor; auto. split.
        + destruct levels, s; cbn [written] in Hw; destruct Hw as (rs' & _ & W1 & _ & W2 & _); (exists (Z.of_nat (length rs')); split; [lia|exact W2]).
        + rewrite skipn_app. replace (Z.to_nat (fst to) - length file)%nat with 0%nat by lia. exact J1. }
    destruct G as (is & G1 & G2).
    destruct (rows_read (Some (fun buf offset base start e => ifd_levels levels buf offset base start e)) big file pad pos rs 0 (zlen rs) [] [] is Hpad Hlen) as (es & S1 & S2).
    + replace (pos + 2 + 0 * 12) with (pos + 2) by lia. exact Hr.
    + lia.
    + exact G1.
    + rewrite E. exact Hnd.
    + exists (mkifd es is next 0 big). split; [|split; [reflexivity|]].
      * rewrite levels_body, body_step. fold (zlen rs) in *. rewrite (ru16_at _ _ _ _ (at_placed _ pad _ _ Hc)) by (pose proof (zlen_nonneg rs); lia). cbn [bind].
        replace (4000 <? zlen rs) with false by lia. rewrite S2. cbn [bind app]. replace (pos + (2 + zlen rs * 12)) with (pos + 2 + 12 * zlen rs) by lia.
        rewrite (ru32_at _ _ _ _ (at_placed _ pad _ _ Hx)) by (change (2 ^ 32) with 4294967296 in Hxr; lia). reflexivity.
      * constructor; [exact Hnd|rewrite E in S1; exact S1|exact G2].
Qed.
End Any2.
