(** Reading the fields of nested directories (C59). *)
From Coq Require Import String Ascii ZArith List Bool Reals Lia.
From Flocq Require Import Core BinarySingleNaN.
From Verif Require Import Base Num F32 Bytes Tiff Transform Image Camera Clients Decoder Dec_Simple Dec_Pred Dec_Nef Dispatch.
From Verif Require Import Spec_Bits Spec_Image Spec_Packed Spec_Tiff Spec_Camera Spec_Known Spec_Pred Spec_Meta Spec_File Spec_Tree.
From Verif Require Import P_Base P_F32 P_Tiff3 P_Tiff5 P_Meta1 P_Meta2 P_File1 P_File2 P_File4 P_Tree1 P_Tree2.
Import ListNotations.
Local Open Scope Z_scope.

Section Any.
Context {M : Mode}.
Lemma see_numbers : forall big fs i tag vs, Sees big fs i -> has_numbers fs tag vs ->
  exists en, find_entry i tag = Some en /\ e_count en = Z.of_nat (length vs) /\
    (forall k v, nth_error vs k = Some v -> get_u32 en (Z.of_nat k) = Ok v /\ get_f32 en (Z.of_nat k) = Ok (f32_of v) /\ 0 <= v < 2 ^ 32).
Proof.
  intros big fs i tag vs P H.
  assert (exists typ, (typ = 3 \/ typ = 4) /\ In (mkfield tag typ vs) fs /\ Forall (fun v => 0 <= v < 256 ^ type_size typ) vs /\ Forall (fun v => 0 <= v < 2 ^ 32) vs) as (typ & Ht & Hf & Hv & Hw).
  { destruct H as [[Hf Hv]|[Hf Hv]]; [exists 3|exists 4]; (split; [auto|split; [exact Hf|]]); (split; [exact Hv|]); [|exact Hv].
    eapply Forall_impl; [|exact Hv]. cbv beta. intros v. lia. }
  destruct (s_in _ _ _ P _ Hf) as (en & E1 & E3). exists en. split; [exact E1|]. split; [apply E3|]. intros k v Hk.
  assert (It : integer_type typ = true) by (destruct Ht as [->| ->]; reflexivity).
  pose proof (get_u32_holds big (mkfield tag typ vs) en k v It Hv E3 Hk) as G. split; [exact G|]. split.
  - pose proof E3 as (_ & T & _). cbn [f_typ] in T. unfold get_f32. rewrite T.
    replace (typ =? 5) with false by lia. replace (typ =? 10) with false by lia. rewrite G. reflexivity.
  - exact (proj1 (Forall_forall _ _) Hw v (nth_error_In _ _ Hk)).
Qed.
Lemma one_number : forall fs tag v, has_number fs tag v -> has_numbers fs tag [v].
Proof. intros fs tag v [[H1 H2]|[H1 H2]]; [left|right]; (split; [exact H1|repeat constructor; lia]). Qed.
Lemma see_number : forall big fs i tag v, Sees big fs i -> has_number fs tag v ->
  exists en, find_entry i tag = Some en /\ e_count en = 1 /\ get_u32 en 0 = Ok v /\ get_f32 en 0 = Ok (f32_of v) /\ 0 <= v < 2 ^ 32.
Proof.
  intros big fs i tag v P H. destruct (see_numbers _ _ _ _ _ P (one_number _ _ _ H)) as (en & E1 & E2 & E3). exists en. split; [exact E1|]. split; [exact E2|]. exact (E3 O v eq_refl).
Qed.
Lemma see_usize : forall big fs i tag v, Sees big fs i -> has_number fs tag v -> tag_usize i tag = Ok v /\ 0 <= v < 2 ^ 32.
Proof. intros big fs i tag v P H. destruct (see_number _ _ _ _ _ P H) as (en & E1 & _ & E3 & _ & R). unfold tag_usize, fetch_tag. rewrite E1. cbn [bind]. auto. Qed.
Lemma see_fractions : forall big fs i tag qs, Sees big fs i -> has_fractions big fs tag qs ->
  exists en, find_entry i tag = Some en /\ e_count en = Z.of_nat (length qs) /\
    forall k a b, nth_error qs k = Some (a, b) -> exists x, get_f32 en (Z.of_nat k) = Ok x /\ reads_fraction x a b.
Proof.
  intros big fs i tag qs P [Hf Hq]. destruct (s_in _ _ _ P _ Hf) as (en & E1 & E3). exists en. split; [exact E1|]. split.
  - destruct E3 as (_ & _ & C & _). rewrite C. unfold zlen. cbn [f_vals]. rewrite map_length. reflexivity.
  - intros k a b Hk. eapply get_f32_holds; [exact E3|reflexivity| |exact Hk]. cbn [f_typ].
    eapply Forall_impl; [|exact Hq]. intros q [Q1 Q2]. split; left; auto.
Qed.
Lemma see_bytes : forall big fs i tag typ vs, Sees big fs i -> typ = 1 \/ typ = 7 -> In (mkfield tag typ vs) fs -> bytes vs ->
  exists en, find_entry i tag = Some en /\ e_count en = Z.of_nat (length vs) /\ e_data en = vs /\ e_typ en = typ.
Proof.
  intros big fs i tag typ vs P Ht Hf Hv. destruct (s_in _ _ _ P _ Hf) as (en & E1 & (_ & T & C & D & _)). exists en.
  split; [exact E1|]. split; [exact C|]. split; [|exact T]. rewrite D. unfold field_data. cbn [f_typ f_vals]. destruct Ht as [-> | ->]; cbn [type_size]; change (Z.to_nat 1) with 1%nat; apply text_data; exact Hv.
Qed.
Lemma see_text : forall big fs i tag s, Sees big fs i -> In (text_field tag s) fs -> printable s -> exists en, find_entry i tag = Some en /\ get_string en = Ok s.
Proof. intros big fs i tag s P H Hs. destruct (s_in _ _ _ P _ H) as (en & E1 & E3). exists en. split; [exact E1|]. eapply text_read; [exact Hs|exact E3]. Qed.
Lemma see_orientation : forall big fs i o, Sees big fs i -> has_orientation fs o -> orientation_from_tiff i = Ok o.
Proof.
  intros big fs i o P [[v [H ->]]|[H ->]]; unfold orientation_from_tiff.
  - destruct (see_number _ _ _ _ _ P H) as (en & E1 & _ & E3 & _). rewrite E1, E3. reflexivity.
  - rewrite (s_no _ _ _ P _ H). reflexivity.
Qed.
Lemma see_camera : forall big fs i make model o l mode cam, Sees big fs i -> names fs make model -> has_orientation fs o ->
  find_camera l make model mode = Some cam -> check_supported_with_mode l i mode = Ok (set_orientation o cam).
Proof.
  intros big fs i make model o l mode cam P [C1 C2 C3 C4] Ho Hc.
  destruct (see_text _ _ _ _ _ P C1 C2) as (en & E1 & E2). destruct (see_text _ _ _ _ _ P C3 C4) as (en' & E3 & E4).
  unfold check_supported_with_mode, fetch_tag. rewrite E1. cbn [bind]. rewrite E2. cbn [bind]. rewrite E3. cbn [bind]. rewrite E4. cbn [bind].
  unfold check_supported_with_everything. rewrite Hc. cbn [bind]. rewrite (see_orientation _ _ _ _ P Ho). reflexivity.
Qed.
Lemma see_make : forall big fs i make model l size f, Sees big fs i -> names fs make model -> has_no fs T_DNGVersion ->
  model <> "DCS560C"%string -> lookup_make makes make = Some f -> by_tiff l size i = Ok (DTiff f i).
Proof.
  intros big fs i make model l size f P [C1 C2 C3 C4] Hd Hm Hf.
  destruct (see_text _ _ _ _ _ P C1 C2) as (en & E1 & E2). destruct (see_text _ _ _ _ _ P C3 C4) as (en' & E3 & E4).
  unfold by_tiff, has_entry. rewrite (s_no _ _ _ P _ Hd), E3. unfold fetch_tag. rewrite E3. cbn [bind]. rewrite E4. cbn [bind].
  rewrite (proj2 (String.eqb_neq _ _) Hm), E1. cbn [bind]. rewrite E2. cbn [bind]. rewrite Hf. reflexivity.
Qed.

(** ** Opened files *)
Record NOpen (l : loader) (mode : string) (f : format) (big : bool) (ts : list tree) (file : list Z) (o : orientation) (cam : camera) (root : ifd) : Prop := {
  no_decoder : get_decoder l (buffer_new file) (zlen file) = Ok (DTiff f root);
  no_nested : Nested big ts root;
  no_camera : check_supported_with_mode l root mode = Ok (set_orientation o cam);
  no_blacks : no_black_area cam
}.
Lemma nested_opened : forall l mode big ts make model file o cam f, nested_photo l mode big ts make model file o cam ->
  lookup_make makes make = Some f -> exists root, NOpen l mode f big ts file o cam root.
Proof.
  intros l mode big ts make model file o cam f [Hf Hn Hd Hm Ho Hc Hb] Hl. destruct (tree_opened _ _ _ Hf) as (root & G & P). exists root. pose proof (n_sees _ _ _ P) as Q. split.
  - rewrite G. eapply see_make; eassumption.
  - exact P.
  - eapply see_camera; eassumption.
  - exact Hb.
Qed.
Lemma from_slice : forall file off data, from file off data -> bytes file -> slice_from (buffer_new file) off = Ok (data ++ zeros 16) /\ bytes (data ++ zeros 16).
Proof.
  intros file off data [H1 H2] Hb. unfold buffer_new. split.
  - rewrite slice_from_ok by (rewrite zlen_app; unfold zlen; lia). rewrite skipn_app, H2. replace (Z.to_nat off - length file)%nat with 0%nat by lia. reflexivity.
  - apply Forall_app. split; [|apply zeros_bytes]. rewrite <- H2. rewrite <- (firstn_skipn (Z.to_nat off) file) in Hb. apply Forall_app in Hb. apply Hb.
Qed.
(** The directory of the picture *)
Record Pictured (big : bool) (file : list Z) (root : ifd) (which width height start : Z) (raw : tree) (w h : Z) (data : list Z) (sub : ifd) : Prop := {
  pc_first : find_first_ifd root which = Some sub;
  pc_fetch : fetch_ifd root which = Ok sub;
  pc_sees : Sees big (visible [raw]) sub;
  pc_width : tag_usize sub width = Ok w /\ 0 <= w < 2 ^ 32;
  pc_height : tag_usize sub height = Ok h /\ 0 <= h < 2 ^ 32;
  pc_start : exists off, tag_usize sub start = Ok off /\ slice_from (buffer_new file) off = Ok (data ++ zeros 16) /\ off + zlen data = zlen file;
  pc_bytes : bytes (data ++ zeros 16)
}.
Lemma pictured : forall big ts file root which width height start raw w h data, Nested big ts root -> bytes file -> picture_at ts file which width height start raw w h data ->
  exists sub, Pictured big file root which width height start raw w h data sub.
Proof.
  intros big ts file root which width height start raw w h data P Hb [D1 D2 D3 (off & D4 & D5)]. destruct (n_with _ _ _ P _ _ D1) as (sub & F & R). exists sub. pose proof (tree_sees _ _ _ R) as S0.
  destruct (from_slice _ _ _ D5 Hb) as [X1 X2]. split; auto.
  - unfold fetch_ifd. rewrite F. reflexivity.
  - eapply see_usize; eassumption.
  - eapply see_usize; eassumption.
  - exists off. split; [apply (see_usize _ _ _ _ _ S0 D4)|]. split; [exact X1|]. destruct D5 as [D5 <-]. unfold zlen. rewrite skipn_length. lia.
Qed.
End Any.
