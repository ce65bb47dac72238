(** Directories of written files (C53). *)
From Coq Require Import String Ascii ZArith List Bool Lia.
From Verif Require Import Base Num F32 Bytes Tiff Ciff Transform Image Camera Clients Decoder Dec_Header Dispatch.
From Verif Require Import Spec_Bits Spec_Image Spec_Tiff Spec_Camera Spec_Known Spec_File P_Base P_Bits P_Tiff3 P_Tiff5.
Import ListNotations.
Local Open Scope Z_scope.

(** ** Text *)
Lemma nul_text : forall l, Forall (fun c => 32 <= c < 127) l -> before_nul (l ++ [0]) = l.
Proof. induction 1 as [|c l Hc _ IH]; [reflexivity|]. cbn [app before_nul]. replace (c =? 0) with false by lia. rewrite IH. reflexivity. Qed.
Lemma utf8_text : forall l, Forall (fun c => 32 <= c < 127) l -> utf8 (length l) l = Some l.
Proof. induction 1 as [|c l Hc _ IH]; [reflexivity|]. cbn [length utf8]. replace (c <? 128) with true by lia. rewrite IH. reflexivity. Qed.
Lemma drop_text : forall l, Forall (fun c => 32 <= c < 127) l -> hd 0 l <> 32 -> drop_while whitespace l = l.
Proof.
  intros [|c l] H Hh; [reflexivity|]. inversion H as [|? ? Hc _]; subst. cbn [hd] in Hh. cbn [drop_while].
  replace (whitespace c) with false; [reflexivity|]. unfold whitespace. lia.
Qed.
Lemma trim_text : forall l, Forall (fun c => 32 <= c < 127) l -> hd 0 l <> 32 -> last l 0 <> 32 -> trim l = l.
Proof.
  intros l H Hh Hl. unfold trim. rewrite (drop_text l H Hh), drop_text; [apply rev_involutive|apply Forall_rev; exact H|].
  destruct l as [|c l] using rev_ind; [cbn; lia|]. rewrite last_last in Hl. rewrite rev_app_distr. exact Hl.
Qed.
Lemma str_text : forall s, Forall (fun c => 32 <= c < 127) (codes_of s) -> str_of (codes_of s) = s.
Proof.
  intros s. unfold str_of, codes_of. rewrite <- (string_of_list_ascii_of_string s) at 3. generalize (list_ascii_of_string s). intros l H. f_equal.
  induction l as [|c l IH]; [reflexivity|]. cbn [map] in H. inversion H as [|? ? Hc Ht]; subst. cbn [map flat_map]. rewrite IH by exact Ht.
  unfold utf8_char. replace (Z.of_N (N_of_ascii c) <? 128) with true by lia. cbn [app]. f_equal. unfold chr. rewrite N2Z.id. apply ascii_N_embedding.
Qed.
Lemma text_data : forall big l, Forall (fun c => 0 <= c < 256) l -> flat_map (bytes_of big 1) l = l.
Proof.
  intros big l. induction 1 as [|c l Hc _ IH]; [reflexivity|]. cbn [flat_map]. rewrite IH. replace (bytes_of big 1 c) with [c]; [reflexivity|].
  destruct big; cbn [bytes_of little rev app]; rewrite Z.mod_small by lia; reflexivity.
Qed.
Lemma text_read : forall big tag s en, printable s -> holds big (text_field tag s) en -> get_string en = Ok s.
Proof.
  intros big tag s en (P1 & P2 & P3) (_ & _ & _ & Hd & _). unfold get_string, get_str. rewrite Hd. unfold field_data, text_field. cbn [f_typ f_vals type_size].
  change (Z.to_nat 1) with 1%nat. rewrite text_data.
  - rewrite nul_text, utf8_text, trim_text by assumption. cbn [bind]. rewrite str_text by exact P1. reflexivity.
  - apply Forall_app. split; [|repeat constructor; lia]. eapply Forall_impl; [|exact P1]. cbv beta. intros a Ha. lia.
Qed.

(** ** The parsed directory *)
Record Parsed (big : bool) (fs : list field) (root sub : ifd) : Prop := {
  p_root : forall f, In f fs -> exists en, find_entry root (f_tag f) = Some en /\ find_entry sub (f_tag f) = Some en /\ holds big f en;
  p_none : forall tag, has_no fs tag -> find_entry root tag = None /\ find_entry sub tag = None;
  p_ifds : forall tag, In tag (map f_tag fs) -> find_ifds_with_tag root tag = [sub; sub];
  p_absent : forall tag, has_no fs tag -> find_first_ifd root tag = None;
  p_end : i_endian root = big /\ i_endian sub = big
}.
Section Any.
Context {M : Mode}.
Lemma parsed : forall big fs make model tail, camera_fields fs make model -> Z.of_nat (length (tiff_file big fs ++ tail)) < 2 ^ 32 ->
  exists root sub, ifd_new_file (tiff_file big fs ++ tail) = Ok root /\ Parsed big fs root sub.
Proof.
  intros big fs make model tail [Hk Hnd Hn _ _ _ _] Hlen. destruct (parse_file big fs tail Hk Hnd Hn Hlen) as [es [S1 S2]].
  exists (mkifd [] [mkifd es [] 0 0 big] 0 0 big), (mkifd es [] 0 0 big). split; [exact S2|]. split.
  - intros f Hf. destruct (lookup_stored big fs es (f_tag f) S1 Hnd) as [L _]. destruct (L f Hf eq_refl) as [en [E1 E2]].
    exists en. cbn [find_entry lookup]. rewrite E1. auto.
  - intros tag Ht. destruct (lookup_stored big fs es tag S1 Hnd) as [_ L]. cbn [find_entry lookup]. rewrite L by exact Ht. auto.
  - intros tag Ht. apply in_map_iff in Ht. destruct Ht as [f [<- Hf]]. destruct (lookup_stored big fs es (f_tag f) S1 Hnd) as [L _]. destruct (L f Hf eq_refl) as [en [E1 _]].
    unfold find_ifds_with_tag, contains. cbn [i_entries lookup]. rewrite E1. reflexivity.
  - intros tag Ht. destruct (lookup_stored big fs es tag S1 Hnd) as [_ L]. unfold find_first_ifd, find_ifds_with_tag, contains. cbn [i_entries lookup]. rewrite L by exact Ht. reflexivity.
  - split; reflexivity.
Qed.

Lemma header : forall big fs rest, let buf := tiff_file big fs ++ rest in 16 <= Z.of_nat (length buf) ->
  is_mrw buf = Ok false /\ is_ciff buf = Ok false /\ is_ari buf = Ok false /\ is_x3f buf = Ok false.
Proof.
  intros big fs rest buf H.
  assert (exists t, buf = (if big then [77; 77; 0; 42; 0; 0; 0; 8] else [73; 73; 42; 0; 8; 0; 0; 0]) ++ t) as [t E].
  { unfold buf, tiff_file. eexists. rewrite <- !app_assoc. destruct big; cbn [app bytes_of little rev]; reflexivity. }
  clearbody buf. subst buf. rewrite app_length in H.
  do 8 (destruct t as [|? t]; [destruct big; cbn in H; lia|]).
  repeat split; destruct big; unfold is_mrw, is_ciff, is_ari, is_x3f, at_is, BEu32, slice.
  all: try (cbn; reflexivity).
  all: unfold zlen; cbn [length W_HEAPCCDR app].
  all: match goal with |- context [if ?b then _ else _] => replace b with true by lia end; reflexivity.
Qed.

Lemma number_read : forall big fs root sub tag v, Parsed big fs root sub -> has_number fs tag v ->
  exists en, find_entry root tag = Some en /\ find_entry sub tag = Some en /\ e_count en = 1 /\ get_u32 en 0 = Ok v.
Proof.
  intros big fs root sub tag v [P _ _ _ _] [[Hf Hv]|[Hf Hv]]; destruct (P _ Hf) as (en & E1 & E2 & E3); exists en; (split; [exact E1|split; [exact E2|]]);
    (split; [apply E3|]); change 0 with (Z.of_nat 0); (eapply get_u32_holds; [| |exact E3|reflexivity]; [reflexivity|repeat constructor; cbn; lia]).
Qed.
Lemma number_range : forall fs tag v, has_number fs tag v -> 0 <= v < 2 ^ 32.
Proof. intros fs tag v [[_ H]|[_ H]]; lia. Qed.
Lemma number_tag : forall (fs : list field) tag v, has_number fs tag v -> In tag (map f_tag fs).
Proof. intros fs tag v [[H _]|[H _]]; apply (in_map f_tag) in H; exact H. Qed.
Lemma usize_read : forall big fs root sub tag v, Parsed big fs root sub -> has_number fs tag v ->
  tag_usize root tag = Ok v /\ tag_usize sub tag = Ok v.
Proof.
  intros big fs root sub tag v P H. destruct (number_read _ _ _ _ _ _ P H) as (en & E1 & E2 & _ & E3). unfold tag_usize, fetch_tag. rewrite E1, E2. cbn [bind]. auto.
Qed.
Lemma size_read : forall big fs root sub tag v, Parsed big fs root sub -> has_number fs tag v -> tag_usize sub tag = Ok v /\ 0 <= v < 2 ^ 32.
Proof. intros big fs root sub tag v P H. split; [eapply usize_read; eassumption|eapply number_range; exact H]. Qed.
Lemma ifd_found : forall big fs root sub tag, Parsed big fs root sub -> In tag (map f_tag fs) -> fetch_ifd root tag = Ok sub.
Proof. intros big fs root sub tag P H. unfold fetch_ifd, find_first_ifd. rewrite (p_ifds _ _ _ _ P tag H). reflexivity. Qed.
Lemma orientation_read : forall big fs root sub o, Parsed big fs root sub -> has_orientation fs o -> orientation_from_tiff root = Ok o.
Proof.
  intros big fs root sub o P [[v [H ->]]|[H ->]]; unfold orientation_from_tiff.
  - destruct (number_read _ _ _ _ _ _ P H) as (en & E1 & _ & _ & E3). rewrite E1, E3. reflexivity.
  - rewrite (proj1 (p_none _ _ _ _ P _ H)). reflexivity.
Qed.
Lemma text_found : forall big fs root sub tag s, Parsed big fs root sub -> In (text_field tag s) fs -> printable s ->
  exists en, find_entry root tag = Some en /\ get_string en = Ok s.
Proof.
  intros big fs root sub tag s P H Hs. destruct (p_root _ _ _ _ P _ H) as (en & E1 & _ & E3). exists en. split; [exact E1|]. eapply text_read; [exact Hs|exact E3].
Qed.
Lemma supported : forall big fs root sub make model o l mode cam, Parsed big fs root sub -> camera_fields fs make model -> has_orientation fs o ->
  find_camera l make model mode = Some cam -> check_supported_with_mode l root mode = Ok (set_orientation o cam).
Proof.
  intros big fs root sub make model o l mode cam P [_ _ _ C1 C2 C3 C4] Ho Hc.
  destruct (text_found _ _ _ _ _ _ P C1 C2) as (en & E1 & E2). destruct (text_found _ _ _ _ _ _ P C3 C4) as (en' & E3 & E4).
  unfold check_supported_with_mode, fetch_tag. rewrite E1. cbn [bind]. rewrite E2. cbn [bind]. rewrite E3. cbn [bind]. rewrite E4. cbn [bind].
  unfold check_supported_with_everything. rewrite Hc. cbn [bind]. rewrite (orientation_read _ _ _ _ _ P Ho). reflexivity.
Qed.
Lemma by_make : forall big fs root sub make model l size f, Parsed big fs root sub -> camera_fields fs make model -> has_no fs T_DNGVersion ->
  model <> "DCS560C"%string -> lookup_make makes make = Some f -> by_tiff l size root = Ok (DTiff f root).
Proof.
  intros big fs root sub make model l size f P [_ _ _ C1 C2 C3 C4] Hd Hm Hf.
  destruct (text_found _ _ _ _ _ _ P C1 C2) as (en & E1 & E2). destruct (text_found _ _ _ _ _ _ P C3 C4) as (en' & E3 & E4).
  unfold by_tiff, has_entry. rewrite (proj1 (p_none _ _ _ _ P _ Hd)), E3. unfold fetch_tag. rewrite E3. cbn [bind]. rewrite E4. cbn [bind].
  rewrite (proj2 (String.eqb_neq _ _) Hm), E1. cbn [bind]. rewrite E2. cbn [bind]. rewrite Hf. reflexivity.
Qed.
Lemma by_dng : forall big fs root sub l size, Parsed big fs root sub -> In T_DNGVersion (map f_tag fs) -> by_tiff l size root = Ok (DTiff DNG root).
Proof.
  intros big fs root sub l size P H. apply in_map_iff in H. destruct H as [f [E Hf]]. destruct (p_root _ _ _ _ P _ Hf) as (en & E1 & _).
  unfold by_tiff, has_entry. rewrite <- E, E1. reflexivity.
Qed.

(** Everything together *)
Lemma opened : forall big fs make model tag gap data file, raw_file big fs make model tag gap data file ->
  exists root sub, (forall l, get_decoder l (buffer_new file) (zlen file) = by_tiff l (zlen file) root) /\ Parsed big fs root sub /\
    tag_usize root tag = Ok (Z.of_nat (length (tiff_file big fs ++ gap))) /\ tag_usize sub tag = Ok (Z.of_nat (length (tiff_file big fs ++ gap))) /\
    slice_from (buffer_new file) (Z.of_nat (length (tiff_file big fs ++ gap))) = Ok (data ++ zeros 16).
Proof.
  intros big fs make model tag gap data file [Cf Ef Hs Hb Ht].
  assert (Eb : buffer_new file = tiff_file big fs ++ (gap ++ data ++ zeros 16)) by (unfold buffer_new; rewrite Ef, <- !app_assoc; reflexivity).
  assert (Lb : Z.of_nat (length (buffer_new file)) = Z.of_nat (length file) + 16) by (unfold buffer_new; rewrite app_length; change (length (zeros 16)) with 16%nat; lia).
  destruct (parsed big fs make model (gap ++ data ++ zeros 16) Cf) as (root & sub & E & P); [rewrite <- Eb; lia|].
  exists root, sub. split; [|split; [exact P|]].
  - intros l. destruct (header big fs (gap ++ data ++ zeros 16)) as (H1 & H2 & H3 & H4); [rewrite <- Eb; lia|]. rewrite <- Eb in *.
    unfold get_decoder. rewrite H1. cbn [bind]. rewrite H2. cbn [bind]. rewrite H3. cbn [bind]. rewrite H4. cbn [bind]. rewrite E. reflexivity.
  - destruct (usize_read _ _ _ _ _ _ P Ht) as [U1 U2]. split; [exact U1|]. split; [exact U2|].
    rewrite slice_from_ok by (unfold zlen; rewrite Lb, Ef, !app_length; lia). rewrite Nat2Z.id, Eb, app_assoc. f_equal.
    rewrite skipn_app, Nat.sub_diag, skipn_all. reflexivity.
Qed.
Lemma finished : forall cam o w h wb image, no_black_area cam ->
  exists img, ok_image (set_orientation o cam) w h wb image = Ok img /\ shows img cam o w h /\ i_data img = image /\ i_blacks img = c_blacks cam /\ i_wb img = wb.
Proof.
  intros cam o w h wb image [N1 N2]. unfold ok_image, black_levels, set_orientation. cbn [c_blackareah c_blackareav c_blacks].
  destruct (c_blackareah cam) as [h0 h1]. destruct (c_blackareav cam) as [v0 v1]. cbn [snd] in N1, N2. subst h1 v1. cbn [Z.eqb negb orb bind].
  eexists. split; [reflexivity|]. split; [|repeat split]. split; try reflexivity. split; try reflexivity. left. reflexivity.
Qed.
Lemma lib_decodes : forall powf parse_f32 db l file img, loader_new db = Ok l -> decode powf parse_f32 l file = Ok img -> lib_decode powf parse_f32 db file = Ok img.
Proof. intros powf parse_f32 db l file img H1 H2. unfold lib_decode, decode_safe. rewrite H1. cbn [bind]. rewrite H2. reflexivity. Qed.
(** Everything together *)
Record Open (l : loader) (mode : string) (f : format) (big : bool) (fs : list field) (tag : Z) (data file : list Z) (o : orientation) (cam : camera) (root sub : ifd) : Prop := {
  o_decoder : get_decoder l (buffer_new file) (zlen file) = Ok (DTiff f root);
  o_parsed : Parsed big fs root sub;
  o_offset : exists off, tag_usize root tag = Ok off /\ tag_usize sub tag = Ok off /\ slice_from (buffer_new file) off = Ok (data ++ zeros 16);
  o_camera : check_supported_with_mode l root mode = Ok (set_orientation o cam);
  o_bytes : bytes (data ++ zeros 16);
  o_blacks : no_black_area cam
}.
Lemma zeros_bytes : forall n, bytes (zeros n).
Proof. intros n. unfold zeros. apply Forall_forall. intros x Hx. apply repeat_spec in Hx. subst x. unfold byte. lia. Qed.
Lemma photo_opened : forall l mode big fs make model tag gap data file o cam f, photo l mode big fs make model tag gap data file o cam ->
  lookup_make makes make = Some f -> exists root sub, Open l mode f big fs tag data file o cam root sub.
Proof.
  intros l mode big fs make model tag gap data file o cam f [Hf Hd Hm Ho Hc Hb] Hl.
  destruct (opened _ _ _ _ _ _ _ _ Hf) as (root & sub & G & P & U1 & U2 & S). pose proof Hf as [Cf _ _ Hby _]. exists root, sub. split.
  - rewrite G. eapply by_make; eassumption.
  - exact P.
  - eexists. split; [exact U1|]. split; [exact U2|exact S].
  - eapply supported; eassumption.
  - apply Forall_app. split; [exact Hby|apply zeros_bytes].
  - exact Hb.
Qed.
End Any.
