(** Proofs about the size of decoded images (C45): Canon CR2, and all together. *)
From Coq Require Import String ZArith List Bool Lia ZifyBool ZifyNat.
From Verif Require Import Base Num F32 Bytes Pumps ByteStream Huffman Threads Lookup Packed Ljpeg Tiff Ciff Image Camera Clients Arw Raf Mos Cr2 Decoder.
From Verif Require Import Dec_Simple Dec_Header Dec_Crw Dec_Pred Dec_Nef Dec_Ljpeg Dispatch.
From Verif Require Import Spec_Bits Spec_Packed Spec_Tiff Spec_Camera Spec_Known Spec_Shape P_Base P_Threads P_Tiff3 P_Dispatch P_Always P_Shape1 P_Shape2 P_Shape3 P_Known.
Import ListNotations.
Local Open Scope Z_scope.

Section Cr2.
Context {M : Mode}.
(** The size that a lossless JPEG says *)
Definition framed (s : sofinfo) : Prop := 0 <= s_width s /\ 0 <= s_height s /\ 0 <= s_cps s.
Lemma u16_nonneg : forall e buf pos, bytes buf -> always (fun '(v, _) => 0 <= v) (bs_u16 e buf pos).
Proof. intros e buf pos B. unfold bs_u16. apply always_bind. intros v E. apply ru16_range in E; [|exact B]. apply always_Ok. lia. Qed.
Lemma sof_framed : forall s buf pos, bytes buf -> always (fun '(s, _) => framed s) (parse_sof s buf pos).
Proof.
  intros s buf pos B. unfold parse_sof. do 2 skip. eapply always_bindP; [apply u16_nonneg; exact B|]. intros [h p1] Hh. eapply always_bindP; [apply u16_nonneg; exact B|]. intros [w p2] W.
  skip. destruct (16 <? _); [sh|]. destruct ((4 <? _) || _) eqn:Q; [sh|]. destruct (negb _); [sh|]. skip. apply always_Ok. repeat split; cbn; lia.
Qed.
Lemma sos_framed : forall s buf pos, framed s -> always (fun '(s, _, _, _) => framed s) (parse_sos s buf pos).
Proof. intros s buf pos F. unfold parse_sos. destruct (_ =? 0); [sh|]. do 2 skip. destruct (negb _); [sh|]. do 4 skip. apply always_Ok. exact F. Qed.
Lemma loop_framed : forall fuel buf s d pos, bytes buf -> framed s -> always (fun '(s, _, _, _, _) => framed s) (marker_loop fuel buf s d pos).
Proof.
  induction fuel as [|fuel IH]; intros buf s d pos B F; cbn [marker_loop]; [apply always_Loop|]. skip. destruct (_ =? 195).
  { eapply always_bindP; [apply sof_framed; exact B|]. intros [s' p'] F'. destruct (_ || _); [apply always_Err|]. apply IH; assumption. }
  destruct (_ =? 196); [skip; apply IH; assumption|]. destruct (_ =? 218).
  { eapply always_bindP; [apply sos_framed; exact F|]. intros [[[s' ?] ?] ?] F'. apply always_Ok. exact F'. }
  destruct (_ =? 217); [apply always_Err|]. destruct (_ =? 219); [apply always_Err|]. apply IH; assumption.
Qed.
Lemma ljpeg_framed : forall src, bytes src -> always (fun lj => framed (lj_sof lj)) (ljpeg_new src).
Proof.
  intros src B. unfold ljpeg_new, ljpeg_new_full. skip. destruct (negb _); [apply always_Err|].
  eapply always_bindP; [apply loop_framed; [exact B|repeat split; cbn; lia]|]. intros [[[[s ?] ?] ?] ?] F. do 2 skip. apply always_Ok. exact F.
Qed.

Lemma cr2_raw_sane : forall t, sane t -> always (fun '(raw, _) => sane raw) (cr2_raw t).
Proof.
  intros t S. unfold cr2_raw. destruct (find_first_ifd t T_Cr2Id) as [raw|] eqn:E; [skip; apply always_Ok; eapply first_ifd_sane; eassumption|].
  destruct (find_first_ifd t T_CFAPattern) as [raw|] eqn:E'; [skip; apply always_Ok; eapply first_ifd_sane; eassumption|].
  destruct (find_entry t T_Cr2OldOffset); [skip; apply always_Ok; exact S|apply always_Err].
Qed.
Lemma cr2_whole : forall l buf t, bytes buf -> sane t -> always (fun img => ordinary l buf t img -> whole img) (cr2_image l buf t).
Proof.
  intros l buf t B S. unfold cr2_image. apply always_bind. intros cam C. apply always_bind. intros [raw off] R. pose proof (cr2_raw_sane t S _ R) as SR. cbv beta iota in SR.
  apply always_bind. intros src Es. pose proof (slice_bytes buf off B _ Es) as Bs.
  apply always_bind. intros lj Ej. pose proof (ljpeg_framed src Bs _ Ej) as F. cbv beta in F. destruct F as (F1 & F2 & F3). cbv zeta.
  apply always_bind. intros sx _. set (cpp := if sx =? 2 then 3 else 1). assert (Cp : cpp = 1 \/ cpp = 3) by (unfold cpp; destruct (sx =? 2); auto).
  assert (W : 0 <= lj_width lj) by (unfold lj_width; nia). assert (Hh : 0 <= lj_height lj) by exact F2.
  assert (Ev : even_lines buf t -> Z.Even (lj_width lj)).
  { intros (raw' & off' & src' & lj' & K1 & K2 & K3 & K4). rewrite R in K1. injection K1 as -> ->. rewrite Es in K2. injection K2 as ->. rewrite Ej in K3. assert (K5 : lj = lj') by congruence. rewrite K5. exact K4. }
  assert (Pl : pixel_lines buf t -> lj_width lj mod 3 = 0).
  { intros (raw' & off' & src' & lj' & K1 & K2 & K3 & K4). rewrite R in K1. injection K1 as -> ->. rewrite Es in K2. injection K2 as ->. rewrite Ej in K3. assert (K5 : lj = lj') by congruence. rewrite K5. exact K4. }
  assert (Sa : forall a b, size_agrees buf t -> tag_usize raw T_ImageWidth = Ok a -> tag_usize raw T_ImageLength = Ok b -> 3 * a * b = lj_width lj * lj_height lj).
  { intros a b (raw' & off' & src' & lj' & a' & b' & K1 & K2 & K3 & K4 & K5 & K6) Ka Kb. rewrite R in K1. injection K1 as -> ->. rewrite Es in K2. injection K2 as ->. rewrite Ej in K3.
    assert (K7 : lj = lj') by congruence. rewrite K7. rewrite Ka in K4. injection K4 as ->. rewrite Kb in K5. injection K5 as ->. exact K6. }
  set (w := lj_width lj) in *. set (h := lj_height lj) in *. clearbody w h cpp.
  eapply always_bindP; [apply (ljpeg_pic lj (w * h)); [exact W|apply pic_zeros; nia]|]. intros o1 P1.
  eapply always_bindP; [apply cr2_linearize_pic; exact P1|]. intros o2 P2.
  apply (always_bindP (fun '(w', h', o3) => 0 <= w' /\ 0 <= h' /\ pic (w * h) o3 /\
    (cpp = 1 -> find_hint cam "double_line" = false \/ even_lines buf t -> w' * h' = w * h) /\ (cpp = 3 -> has_entry raw T_ImageWidth = true -> w' mod 3 = 0 /\ (size_agrees buf t -> w' * h' = w * h)) /\
    (cpp = 3 -> has_entry raw T_ImageWidth = false -> pixel_lines buf t -> w' mod 3 = 0 /\ w' * h' = w * h))).
  { unfold cr2_size. destruct Cp as [-> | ->].
    - cbn [Z.eqb]. destruct (find_hint cam "double_line") eqn:D; apply always_Ok.
      + split; [apply Z.div_pos; lia|]. split; [lia|]. split; [exact P2|]. split; [|split; discriminate]. intros _ [K|K]; [discriminate|]. destruct (Ev K) as [q ->]. rewrite (Z.mul_comm 2 q), Z.div_mul by lia. lia.
      + split; [exact W|]. split; [exact Hh|]. split; [exact P2|]. split; [auto|split; discriminate].
    - cbn [Z.eqb]. eapply always_bindP; [apply rgb_pic; exact P2|]. intros o3 P3. destruct (has_entry raw T_ImageWidth) eqn:I.
      + apply always_bind. intros a Ea. pose proof (tag_nonneg raw T_ImageWidth SR a Ea) as A. apply always_bind. intros b Eb. pose proof (tag_nonneg raw T_ImageLength SR b Eb) as Hb. apply always_Ok.
        split; [cbv beta in *; lia|]. split; [exact Hb|]. split; [exact P3|]. split; [discriminate|]. split; [|discriminate]. intros _ _. split; [apply Z.mod_mul; lia|].
        intros K. rewrite <- (Sa a b K Ea Eb). ring.
      + destruct (w / 3 <? h); apply always_Ok.
        * split; [lia|]. split; [apply Z.div_pos; lia|]. split; [exact P3|]. split; [discriminate|]. split; [discriminate|]. intros _ _ K. split; [apply Z.mod_mul; lia|].
          specialize (Pl K). pose proof (Z.div_mod w 3 ltac:(lia)). nia.
        * split; [exact W|]. split; [exact Hh|]. split; [exact P3|]. split; [discriminate|]. split; [discriminate|]. intros _ _ K. split; [exact (Pl K)|reflexivity]. }
  intros [[w' h'] o3] (W' & H' & P3 & N1 & N3 & N4).
  apply (always_bindP (fun o4 => exists n, pic n o4 /\ (has_stripes t -> n = w' * h') /\ (cpp = 1 -> find_hint cam "double_line" = false \/ even_lines buf t -> n = w' * h') /\ (w' * h' = w * h -> n = w' * h'))).
  { assert (G : ~ has_stripes t -> always (fun o4 => exists n, pic n o4 /\ (has_stripes t -> n = w' * h') /\ (cpp = 1 -> find_hint cam "double_line" = false \/ even_lines buf t -> n = w' * h') /\ (w' * h' = w * h -> n = w' * h')) (Ok o3)).
    { intros N. apply always_Ok. exists (w * h). split; [exact P3|]. split; [intros K; contradiction|]. split; [intros C1 D; symmetry; apply N1; assumption|]. intros K. symmetry. exact K. }
    unfold cr2_stripes. destruct (find_entry raw T_Cr2StripeWidths) as [en|] eqn:Ee.
    - apply always_bind. intros n En. destruct (n =? 0) eqn:Zn.
      + apply G. intros (raw' & off' & en' & n' & K1 & K2 & K3 & K4). rewrite R in K1. injection K1 as -> ->. rewrite Ee in K2. injection K2 as ->. rewrite En in K3. injection K3 as ->. lia.
      + do 4 skip. assert (K : forall o, pic (w' * h') o -> exists n0, pic n0 o /\ (has_stripes t -> n0 = w' * h') /\ (cpp = 1 -> find_hint cam "double_line" = false \/ even_lines buf t -> n0 = w' * h') /\ (w' * h' = w * h -> n0 = w' * h')) by (intros o Po; exists (w' * h'); auto).
        destruct (_ =? 2); (eapply always_imp; [|exact K]); [eapply stripes_v2_pic|eapply stripes_v1_pic]; eassumption.
    - apply G. intros (raw' & off' & en' & n' & K1 & K2 & K3 & K4). rewrite R in K1. injection K1 as -> ->. congruence. }
  intros o4 (n & [L4 F4] & St & Dl & Sm). skip. apply always_bind. intros img E. unfold ok_image in E. apply bind_inv in E. destruct E as [bl [_ E]]. injection E as <-. apply always_Ok.
  intros O. destruct Cp as [-> | ->]; cbn [Z.eqb] in *.
  - unfold whole, ordinary in *. cbn in *. destruct O as [[_ O]|[K _]]; [|discriminate]. split; [exact W'|]. split; [exact H'|]. split; [lia|]. split; [|exact F4].
    fold (zlen o4). rewrite L4, Z.mul_1_r. destruct O as [O|[O|O]]; [apply St; exact O| |apply Dl; [reflexivity|right; exact O]]. apply Dl; [reflexivity|]. left.
    destruct (find_hint cam "double_line") eqn:D; [|reflexivity]. exfalso. apply O. exists cam. split; [exact C|exact D].
  - unfold whole, ordinary, img_three in *. cbn in *. destruct O as [[K _]|[_ O]]; [discriminate|].
    assert (Q : w' mod 3 = 0 /\ n = w' * h').
    { destruct O as [[[raw' [off' [K1 K2]]] O]|[O1 O2]].
      - rewrite R in K1. injection K1 as -> ->. destruct (N3 eq_refl K2) as [N5 N6]. split; [exact N5|]. destruct O as [O|O]; [exact (St O)|exact (Sm (N6 O))].
      - destruct (has_entry raw T_ImageWidth) eqn:I; [exfalso; apply O1; exists raw, off; split; [exact R|exact I]|]. destruct (N4 eq_refl eq_refl O2) as [N5 N6]. split; [exact N5|exact (Sm N6)]. }
    destruct Q as [Q1 Q2]. pose proof (Z.div_mod w' 3 ltac:(lia)) as DM. split; [apply Z.div_pos; lia|]. split; [exact H'|]. split; [lia|]. split; [|exact F4].
    fold (zlen o4). rewrite L4, Q2. nia.
Qed.

(** ** Every format *)
Definition tame (d : decoder) : Prop :=
  match d with
  | DMrw (m, _, _) => 0 <= m_width m /\ 0 <= m_height m
  | DCrw c => csane c
  | DTiff _ t => sane t
  | DNaked cam => 0 <= c_raw_width cam /\ 0 <= c_raw_height cam
  | _ => True
  end.
Lemma mrw_tame : forall buf, bytes buf -> always (fun '(m, _, _) => 0 <= m_width m /\ 0 <= m_height m) (mrw_new buf).
Proof.
  intros buf B. unfold mrw_new. do 2 skip. apply (always_bindP (fun m => 0 <= m_width m /\ 0 <= m_height m)).
  - assert (G : forall fuel o p m, 0 <= m_width m /\ 0 <= m_height m -> always (fun m => 0 <= m_width m /\ 0 <= m_height m) (mrw_scan fuel buf o p m)).
    { induction fuel as [|fuel IH]; intros o p m Hm; cbn [mrw_scan]; [apply always_Loop|]. destruct (_ <? o); [|apply always_Ok; exact Hm]. do 2 skip.
      apply (always_bindP (fun m => 0 <= m_width m /\ 0 <= m_height m)); [|intros m' Hm'; skip; apply IH; exact Hm'].
      unfold mrw_block. destruct (_ =? 5263940).
      - apply (always_bindP nonneg); [apply BEu16_nonneg; exact B|]. intros h Hh. apply (always_bindP nonneg); [apply BEu16_nonneg; exact B|]. intros w W. skip. apply always_Ok. auto.
      - destruct (_ =? 5718599); [do 4 skip; apply always_Ok; exact Hm|]. destruct (_ =? _); apply always_Ok; exact Hm. }
    apply G. cbn. lia.
  - intros m Hm. do 2 skip. apply always_Ok. exact Hm.
Qed.
Lemma size_tame : forall l n, (forall cam, find_naked l n = Some cam -> 0 <= c_raw_width cam /\ 0 <= c_raw_height cam) -> always tame (by_size l n).
Proof. intros l n N. unfold by_size. destruct (find_naked l n) eqn:E; [|apply always_Err]. apply always_Ok. apply N. reflexivity. Qed.
Lemma tiff_tame : forall l n t, sane t -> (forall cam, find_naked l n = Some cam -> 0 <= c_raw_width cam /\ 0 <= c_raw_height cam) -> always tame (by_tiff l n t).
Proof.
  intros l n t S N. unfold by_tiff. destruct (has_entry t T_DNGVersion); [apply always_Ok; exact S|]. skip. sh1; [apply always_Ok; exact S|]. destruct (has_entry t T_Make).
  - do 2 skip. destruct (lookup_make _ _); [apply always_Ok; exact S|apply always_Err].
  - destruct (has_entry t T_Software); [|apply size_tame; exact N]. do 2 skip. destruct (String.eqb _ _); [apply always_Ok; exact S|apply size_tame; exact N].
Qed.
Lemma decoder_tame : forall l buf n, bytes buf -> (forall cam, find_naked l n = Some cam -> 0 <= c_raw_width cam /\ 0 <= c_raw_height cam) ->
  always tame (get_decoder l buf n).
Proof.
  intros l buf n B N. unfold get_decoder. skip. sh1.
  - eapply always_bindP; [apply mrw_tame; exact B|]. intros [[m o] t] T. apply always_Ok. exact T.
  - skip. sh1; [apply always_bind; intros c E; apply always_Ok; eapply cfile_sane; eassumption|]. skip. sh1; [apply always_Ok; exact I|]. skip.
    sh1; [skip; apply always_Ok; exact I|]. destruct (ifd_new_file buf) as [t|m| |] eqn:E; [|apply size_tame; exact N|apply always_Panic|apply always_Loop].
    apply tiff_tame; [eapply file_sane; eassumption|exact N].
Qed.
Lemma shaped_whole : forall img, shaped img -> whole img.
Proof. intros img (W & Hh & C & L & F). unfold whole. fold (zlen (i_data img)). rewrite L. repeat split; try assumption; lia. Qed.
Lemma image_whole : forall powf parse_f32 l buf d, bytes buf -> tame d ->
  always (fun img => (forall t, d = DTiff CR2 t -> ordinary l buf t img) -> whole img) (decoder_image powf parse_f32 l buf d).
Proof.
  intros powf parse_f32 l buf d B T.
  assert (G : forall r, always shaped r -> always (fun img => (forall t, d = DTiff CR2 t -> ordinary l buf t img) -> whole img) r).
  { intros r A img E _. apply shaped_whole. apply A; exact E. }
  destruct d as [[[m o] t]| c | | i | f t | cam]; cbn [decoder_image].
  - apply G. destruct T. apply mrw_shaped; assumption.
  - apply G. apply crw_shaped; assumption.
  - apply G. apply ari_shaped; assumption.
  - apply G. apply x3f_shaped.
  - cbn in T. destruct f; try (match goal with |- always _ (cr2_image _ _ _) => fail 1 | _ => apply G end).
    + apply arw_shaped; assumption.
    + apply mef_shaped; assumption.
    + apply orf_shaped; assumption.
    + apply srw_shaped; assumption.
    + apply erf_shaped; assumption.
    + apply kdc_shaped; assumption.
    + apply dcs_shaped; assumption.
    + apply dcr_shaped; assumption.
    + apply rw2_shaped; assumption.
    + apply raf_shaped; assumption.
    + apply pef_shaped; assumption.
    + apply iiq_shaped.
    + apply tfr_shaped; assumption.
    + apply nef_shaped; assumption.
    + apply nrw_shaped; assumption.
    + eapply always_imp; [apply cr2_whole; assumption|]. intros img H O. apply H, O. reflexivity.
    + apply dng_shaped; assumption.
    + apply mos_shaped; assumption.
  - apply G. destruct T. apply nkd_shaped; assumption.
Qed.
Theorem decode_whole : forall powf parse_f32 db file img, bytes file -> file <> [] -> is_toml db -> lib_decode powf parse_f32 db file = Ok img ->
  exists l d, loader_new db = Ok l /\ get_decoder l (buffer_new file) (zlen file) = Ok d /\
    ((forall t, d = DTiff CR2 t -> ordinary l (buffer_new file) t img) -> whole img).
Proof.
  intros powf parse_f32 db file img B NE T H. destruct (lib_decode_inv _ _ _ _ _ H) as [l [L H']]. unfold decode in H'. cbv zeta in H'.
  apply bind_inv in H'. destruct H' as [d [D H']]. exists l, d. split; [exact L|]. split; [exact D|].
  refine (image_whole _ _ _ _ _ (bytes_buffer _ B) _ _ H'). refine (decoder_tame _ _ _ (bytes_buffer _ B) _ _ D).
  intros cam F. destruct (naked_last db l (zlen file) cam T L) as [[[ct m] [mo cm]] [_ De]]; [destruct file; [congruence|unfold zlen; cbn [length]; lia]|exact F|].
  destruct De as (_ & _ & _ & _ & _ & _ & -> & -> & _). unfold size. split; apply Z.mod_pos_bound; lia.
Qed.
Theorem others_whole : forall powf parse_f32 db file img, bytes file -> file <> [] -> is_toml db -> lib_decode powf parse_f32 db file = Ok img ->
  exists l d, loader_new db = Ok l /\ get_decoder l (buffer_new file) (zlen file) = Ok d /\ ((forall t, d <> DTiff CR2 t) -> whole img).
Proof.
  intros powf parse_f32 db file img B NE T H. destruct (decode_whole _ _ _ _ _ B NE T H) as [l [d [L [D W]]]]. exists l, d. split; [exact L|]. split; [exact D|].
  intros N. apply W. intros t E. destruct (N t E).
Qed.
End Cr2.
