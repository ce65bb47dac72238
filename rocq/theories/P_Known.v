(** Proofs about the camera of a picture (C46). *)
From Coq Require Import String ZArith List Bool Lia ZifyBool ZifyNat.
From Verif Require Import Base Num F32 Bytes Ljpeg Tiff Ciff Transform Camera Clients Image Decoder Dec_Simple Dec_Header Dec_Crw Dec_Pred Dec_Nef Dec_Ljpeg Dispatch.
From Verif Require Import Spec_Bits Spec_Tiff Spec_Camera Spec_Dispatch Spec_Known P_Base P_Always Props_Camera Props_Dispatch.
Import ListNotations.
Local Open Scope Z_scope.

Section Known.
Context {M : Mode}.
Definition known (l : loader) (buf : list Z) (d : decoder) (img : rawimage f32) : Prop :=
  exists cam, taken_by l buf img d cam /\ reports img cam /\ reports_blacks d img cam /\ reports_crops img cam /\ reports_orientation d img cam.

(** An image as the decoders make it *)
Definition made (camera : camera) (w h : Z) (img : rawimage f32) : Prop :=
  i_width img = w /\ i_height img = h /\ i_cpp img = 1 /\
  i_make img = c_make camera /\ i_model img = c_model camera /\ i_clean_make img = c_clean_make camera /\ i_clean_model img = c_clean_model camera /\
  i_xyz_to_cam img = c_xyz_to_cam camera /\ i_cfa img = c_cfa camera /\ i_whites img = c_whites camera /\ i_crops img = c_crops camera /\
  i_orientation img = c_orientation camera /\ (no_black_area camera -> i_blacks img = c_blacks camera).
Lemma ok_image_made : forall camera w h wb image img, ok_image camera w h wb image = Ok img -> made camera w h img.
Proof.
  intros camera w h wb image img H. unfold ok_image in H. apply bind_inv in H. destruct H as [blacks [B H]].
  injection H as <-. repeat split. cbn. intros [H0 V0]. unfold black_levels in B. destruct (c_blackareah camera) as [h0 h1]. destruct (c_blackareav camera) as [v0 v1].
  cbn [snd] in *. subst. cbn in B. congruence.
Qed.
Lemma with_blacks_made : forall camera w h wb b image img, ok_image_with_blacklevels camera w h wb b image = Ok img ->
  exists img', made camera w h img' /\ img = img_set_blacks b img'.
Proof.
  intros camera w h wb b image img H. unfold ok_image_with_blacklevels in H. apply bind_inv in H. destruct H as [i [E H]]. injection H as <-.
  exists i. split; [|reflexivity]. eapply ok_image_made. exact E.
Qed.
(** The lookup *)
Lemma supported_inv : forall l t mode camera, check_supported_with_mode l t mode = Ok camera ->
  exists make model cam o, text t Make make /\ text t Model model /\ find_camera l make model mode = Some cam /\ camera = set_orientation o cam /\
    orientation_from_tiff t = Ok o.
Proof.
  intros l t mode camera H. unfold check_supported_with_mode in H.
  apply bind_inv in H. destruct H as [e1 [E1 H]]. apply bind_inv in H. destruct H as [make [E2 H]].
  apply bind_inv in H. destruct H as [e2 [E3 H]]. apply bind_inv in H. destruct H as [model [E4 H]].
  apply bind_inv in H. destruct H as [cam [E5 H]]. apply bind_inv in H. destruct H as [o [E6 H]]. injection H as <-.
  unfold fetch_tag in E1, E3. destruct (find_entry t T_Make) eqn:F1; [|discriminate]. destruct (find_entry t T_Model) eqn:F2; [|discriminate].
  injection E1 as ->. injection E3 as ->. unfold check_supported_with_everything in E5. destruct (find_camera l make model mode) eqn:F; [|discriminate]. injection E5 as ->.
  exists make, model, cam, o. split; [exists e1; split; [exact F1|exact E2]|]. split; [exists e2; split; [exact F2|exact E4]|]. split; [exact F|]. split; [reflexivity|exact E6].
Qed.
Lemma everything_inv : forall l make model mode camera, check_supported_with_everything l make model mode = Ok camera -> find_camera l make model mode = Some camera.
Proof. intros l make model mode camera H. unfold check_supported_with_everything in H. destruct (find_camera l make model mode); congruence. Qed.
Lemma orientation_inv : forall t o, orientation_from_tiff t = Ok o ->
  match find_entry t T_Orientation with
  | Some en => exists v, get_u32 en 0 = Ok v /\ o = from_u16 (v mod 2 ^ 16)
  | None => o = Unknown
  end.
Proof.
  intros t o H. unfold orientation_from_tiff in H. destruct (find_entry t T_Orientation); [|congruence].
  apply bind_inv in H. destruct H as [v [E H]]. exists v. split; [exact E|]. injection H as <-. reflexivity.
Qed.
Ltac split_made H := destruct H as [Hw [Hh [Hc [Q1 [Q2 [Q3 [Q4 [Q5 [Q6 [Q7 [Q8 [Q9 Q10]]]]]]]]]]]].
(** An ordinary picture of a TIFF format *)
Lemma finish_tiff : forall l buf f t mode camera w h img, f <> DNG -> f <> MOS -> (f <> NEF -> f <> RW2 -> mode = ""%string) ->
  (f = NEF \/ f = RW2 -> mode_of f t img mode) -> check_supported_with_mode l t mode = Ok camera -> made camera w h img -> known l buf (DTiff f t) img.
Proof.
  intros l buf f t mode camera w h img D N H0 Hm S Md. destruct (supported_inv l t mode camera S) as [make [model [cam [o [T1 [T2 [F [-> O]]]]]]]].
  apply orientation_inv in O. split_made Md. exists cam. split; [|split; [|split; [|split]]].
  - eapply by_name; [|exact F]. constructor; try assumption. destruct f; cbn [mode_of]; try (apply H0; discriminate); apply Hm; auto.
  - constructor; try assumption; [left; exact Hc|]. rewrite Hc. exact Q7.
  - intros _ A. rewrite Hc. exact (Q10 A).
  - left. exact Q8.
  - assert (G : reports_orientation (DTiff ARW t) img cam).
    { cbn. destruct (find_entry t T_Orientation); [destruct O as [v [Ev ->]]; exists v; split; [exact Ev|exact Q9]|subst o; exact Q9]. }
    destruct f; try exact G. congruence.
Qed.
Lemma finish_other : forall l buf d camera w h img, (exists make model mode, says buf img d make model mode /\ find_camera l make model mode = Some camera) ->
  match d with DTiff MOS _ | DCrw _ | DAri => True | _ => False end -> made camera w h img -> known l buf d img.
Proof.
  intros l buf d camera w h img [make [model [mode [S F]]]] D Md. split_made Md. exists camera. split; [|split; [|split; [|split]]].
  - eapply by_name; [exact S|exact F].
  - constructor; try assumption; [left; exact Hc|]. rewrite Hc. exact Q7.
  - intros _ A. rewrite Hc. exact (Q10 A).
  - left. exact Q8.
  - destruct d; try contradiction; [exact Q9|exact Q9|destruct f; try contradiction; exact Q9].
Qed.
Ltac plain := let img := fresh "img" in let H := fresh "H" in intros img H; eapply finish_tiff with (mode := ""%string);
  [discriminate|discriminate|reflexivity|intros [K|K]; discriminate K|eassumption|eapply ok_image_made; exact H].
Lemma dcs_known : forall l buf t, always (known l buf (DTiff DCS t)) (dcs_image l buf t). Proof. intros. unfold dcs_image. al; plain. Qed.
Lemma erf_known : forall l buf t, always (known l buf (DTiff ERF t)) (erf_image l buf t). Proof. intros. unfold erf_image. al; plain. Qed.
Lemma mef_known : forall l buf t, always (known l buf (DTiff MEF t)) (mef_image l buf t). Proof. intros. unfold mef_image. al; plain. Qed.
Lemma tfr_known : forall l buf t, always (known l buf (DTiff TFR t)) (tfr_image l buf t). Proof. intros. unfold tfr_image. al; plain. Qed.
Lemma kdc_known : forall l buf t, always (known l buf (DTiff KDC t)) (kdc_image l buf t). Proof. intros. unfold kdc_image. al; plain. Qed.
Lemma nrw_known : forall l buf t, always (known l buf (DTiff NRW t)) (nrw_image l buf t). Proof. intros. unfold nrw_image. al; plain. Qed.
Lemma dcr_known : forall l buf t, always (known l buf (DTiff DCR t)) (dcr_image l buf t). Proof. intros. unfold dcr_image. al; plain. Qed.
Lemma orf_known : forall l buf t, always (known l buf (DTiff ORF t)) (orf_image l buf t). Proof. intros. unfold orf_image. al; plain. Qed.
Lemma srw_known : forall l buf t, always (known l buf (DTiff SRW t)) (srw_image l buf t). Proof. intros. unfold srw_image. al; plain. Qed.
Lemma arw_known : forall l buf t, always (known l buf (DTiff ARW t)) (arw_image l buf t).
Proof. intros. unfold arw_image, a100_image, srf_image. al; plain. Qed.
Ltac levels f := let img := fresh "img" in let i := fresh "i" in let H := fresh "H" in let E := fresh "E" in
  intros img H; apply with_blacks_made in H; destruct H as [i [H E]]; subst img;
  eapply (fun a b t => finish_tiff a b f t ""%string) in H; [|discriminate|discriminate|reflexivity|intros [K|K]; discriminate K|eassumption].
Lemma blacks_known : forall l buf f t b img, own_blacks (DTiff f t) = true -> known l buf (DTiff f t) img -> known l buf (DTiff f t) (img_set_blacks b img).
Proof.
  intros l buf f t b img D [cam [T [R [_ [C O]]]]]. exists cam. split; [|split; [|split; [|split]]].
  - inversion T as [d make model mode cam0 S F|]. subst. eapply by_name; [|exact F]. destruct f; try discriminate D; inversion S; subst; constructor; assumption.
  - destruct R. constructor; assumption.
  - intros E. congruence.
  - exact C.
  - destruct f; exact O.
Qed.
Lemma iiq_known : forall l buf t, always (known l buf (DTiff IIQ t)) (iiq_image l buf t).
Proof. intros. unfold iiq_image. al; levels IIQ; apply blacks_known; [reflexivity|eassumption]. Qed.
Lemma pef_known : forall l buf t, always (known l buf (DTiff PEF t)) (pef_image l buf t).
Proof. intros. unfold pef_image. al; levels PEF; apply blacks_known; [reflexivity|eassumption]. Qed.
Lemma rw2_known : forall l buf t, always (known l buf (DTiff RW2 t)) (rw2_image l buf t).
Proof.
  intros. unfold rw2_image. apply always_bind. intros [[w h] image] _. al. intros img H1. apply ok_image_made in H1. eapply finish_tiff; [discriminate|discriminate| | |eassumption|exact H1].
  - intros _ N. contradiction.
  - intros _. cbn. destruct H1 as [-> [-> _]]. reflexivity.
Qed.
Lemma nef_known : forall powf l buf t, always (known l buf (DTiff NEF t)) (nef_image powf l buf t).
Proof.
  intros. unfold nef_image. do 9 (apply always_bind; intros ? ?). apply always_bind. intros [[w cpp] image] _. do 2 (apply always_bind; intros ? ?). apply always_Ok.
  match goal with H : ok_image _ _ _ _ _ = Ok ?i, S : check_supported_with_mode _ _ _ = Ok _, R : fetch_ifd _ _ = Ok ?raw, B : tag_usize ?raw T_BitsPerSample = Ok ?bps |- _ =>
    rename H into HI; rename S into HS; rename R into HR; rename B into HB; rename i into im; rename bps into b end.
  pose proof (ok_image_made _ _ _ _ _ _ HI) as Md.
  assert (Mo : forall img, mode_of NEF t img (nef_mode b)).
  { intros img. cbn. unfold fetch_ifd in HR. destruct (find_first_ifd t T_CFAPattern) as [r|] eqn:F; [|discriminate]. exists r, b. split; [reflexivity|]. split; [|reflexivity].
    injection HR as <-. exact HB. }
  assert (K : known l buf (DTiff NEF t) im) by (eapply finish_tiff; [discriminate|discriminate|intros N; contradiction|intros _; apply Mo|exact HS|exact Md]).
  destruct (cpp =? 3); [|exact K]. clear K. destruct (supported_inv _ _ _ _ HS) as [make [model [cam [o [T1 [T2 [F [E O]]]]]]]]. subst.
  apply orientation_inv in O. split_made Md. exists cam. split; [|split; [|split; [|split]]].
  - eapply by_name; [|exact F]. constructor; try assumption; try discriminate. apply Mo.
  - constructor; try assumption; [right|]; reflexivity.
  - intros _ _. reflexivity.
  - left. exact Q8.
  - cbn. destruct (find_entry t T_Orientation); [destruct O as [v [Ev ->]]; exists v; split; [exact Ev|exact Q9]|subst o; exact Q9].
Qed.
Lemma cr2_known : forall l buf t, always (known l buf (DTiff CR2 t)) (cr2_image l buf t).
Proof.
  intros. unfold cr2_image. apply always_bind; intros camera HS. apply always_bind. intros [raw off] _. do 3 (apply always_bind; intros ? ?). cbv zeta.
  do 2 (apply always_bind; intros ? ?). apply always_bind. intros [[w h] out] _. do 3 (apply always_bind; intros ? ?). apply always_Ok.
  match goal with H : ok_image _ _ _ _ _ = Ok ?i |- _ => pose proof (ok_image_made _ _ _ _ _ _ H) as Md; rename i into im end.
  assert (K : known l buf (DTiff CR2 t) im) by (eapply finish_tiff with (mode := ""%string); [discriminate|discriminate|reflexivity|intros [K|K]; discriminate K|exact HS|exact Md]).
  destruct (_ =? 3); [|exact K]. clear K. destruct (supported_inv _ _ _ _ HS) as [make [model [cam [o [T1 [T2 [F [E O]]]]]]]]. subst.
  apply orientation_inv in O. split_made Md. exists cam. split; [|split; [|split; [|split]]].
  - eapply by_name; [|exact F]. constructor; try assumption; try discriminate. reflexivity.
  - constructor; try assumption; [right|]; reflexivity.
  - intros _ _. reflexivity.
  - right. split; [reflexivity|]. left. reflexivity.
  - cbn. destruct (find_entry t T_Orientation); [destruct O as [v [Ev ->]]; exists v; split; [exact Ev|exact Q9]|subst o; exact Q9].
Qed.
Lemma hint_In : forall cam h, find_hint cam h = true -> In h (c_hints cam).
Proof. intros cam h H. unfold find_hint in H. apply existsb_exists in H. destruct H as [x [I E]]. apply String.eqb_eq in E. subst. exact I. Qed.
Lemma raf_known : forall l buf t, always (known l buf (DTiff RAF t)) (raf_image l buf t).
Proof.
  intros. unfold raf_image. apply always_bind; intros camera HS. apply always_bind; intros raw _. apply always_bind. intros [w h] _. do 5 (apply always_bind; intros ? ?).
  destruct (_ || _) eqn:R; cbv zeta; [|al; plain]. apply always_bind. intros [[w2 h2] im] _. apply always_bind. intros wb _. apply always_Ok.
  destruct (supported_inv _ _ _ _ HS) as [make [model [cam [o [T1 [T2 [F [E O]]]]]]]]. subst. apply orientation_inv in O.
  exists cam. split; [|split; [|split; [|split]]].
  - eapply by_name; [|exact F]. constructor; try assumption; try discriminate. reflexivity.
  - constructor; try reflexivity. left. reflexivity.
  - intros _ _. reflexivity.
  - right. split; [reflexivity|]. right. apply orb_true_iff in R. destruct R as [R|R]; apply hint_In in R; [left|right]; exact R.
  - cbn. destruct (find_entry t T_Orientation); [destruct O as [v [Ev ->]]; exists v; split; [exact Ev|reflexivity]|subst o; reflexivity].
Qed.
Lemma mos_known : forall parse_f32 l buf t, always (known l buf (DTiff MOS t)) (mos_image parse_f32 l buf t).
Proof.
  intros. unfold mos_image. al. intros img K. eapply finish_other; [|exact I|eapply ok_image_made; exact K].
  do 3 eexists. split; [eapply says_xmp; eassumption|eapply everything_inv; eassumption].
Qed.
Lemma mrw_known : forall l buf d, always (known l buf (DMrw d)) (mrw_image l buf d).
Proof.
  intros l buf [[m off] t]. unfold mrw_image. apply always_bind; intros camera HS. do 2 (apply always_bind; intros ? ?). cbv zeta. intros img H1. apply ok_image_made in H1. rename H1 into Md.
  destruct (supported_inv _ _ _ _ HS) as [make [model [cam [o [T1 [T2 [F [E O]]]]]]]]. subst. apply orientation_inv in O. split_made Md. exists cam. split; [|split; [|split; [|split]]].
  - eapply by_name; [|exact F]. constructor; assumption.
  - constructor; try assumption; [left; exact Hc|]. rewrite Hc. exact Q7.
  - intros _ A. rewrite Hc. exact (Q10 A).
  - left. exact Q8.
  - cbn. destruct (find_entry t T_Orientation); [destruct O as [v [Ev ->]]; exists v; split; [exact Ev|exact Q9]|subst o; exact Q9].
Qed.
Lemma crw_known : forall l buf c, always (known l buf (DCrw c)) (crw_image l buf c).
Proof.
  intros. unfold crw_image. apply always_bind; intros en HE. destruct (cget_strings en) as [|make [|model r]] eqn:S; try apply always_Err.
  apply always_bind; intros camera HS. apply always_bind. intros [[w h] im] _. apply always_bind; intros wb _. intros img K. eapply finish_other; [|exact I|eapply ok_image_made; exact K].
  do 3 eexists. split; [|eapply everything_inv; exact HS]. unfold fetch_cifd_tag in HE. destruct (cfind_entry c C_MakeModel) eqn:F; [|discriminate]. injection HE as ->.
  eapply says_ciff; eassumption.
Qed.
Lemma ari_known : forall l buf, always (known l buf DAri) (ari_image l buf).
Proof.
  intros. unfold ari_image. al. intros img K. eapply finish_other; [|exact I|eapply ok_image_made; exact K].
  do 3 eexists. split; [|eapply everything_inv; eassumption]. constructor. assumption.
Qed.
Lemma x3f_known : forall l buf d, always (known l buf (DX3f d)) (x3f_image l buf d). Proof. intros. unfold x3f_image. al. Qed.
Lemma nkd_known : forall l buf cam, always (known l buf (DNaked cam)) (nkd_image buf cam).
Proof.
  intros. unfold nkd_image. al. intros img K. apply ok_image_made in K. split_made K. exists cam. split; [constructor|]. split; [|split; [|split]].
  - constructor; try assumption; [left; exact Hc|]. rewrite Hc. exact Q7.
  - intros _ A. rewrite Hc. exact (Q10 A).
  - left. exact Q8.
  - exact Q9.
Qed.
Theorem image_known : forall powf parse_f32 l buf d img, decoder_image powf parse_f32 l buf d = Ok img -> (forall t, d <> DTiff DNG t) -> known l buf d img.
Proof.
  intros powf parse_f32 l buf d img H N. revert img H. change (always (known l buf d) (decoder_image powf parse_f32 l buf d)). unfold decoder_image.
  destruct d as [d|c| |x|f t|cam]; [apply mrw_known|apply crw_known|apply ari_known|apply x3f_known| |apply nkd_known].
  destruct f; [apply arw_known|apply mef_known|apply orf_known|apply srw_known|apply erf_known|apply kdc_known|apply dcs_known|apply dcr_known|apply rw2_known|
    apply raf_known|apply pef_known|apply iiq_known|apply tfr_known|apply nef_known|apply nrw_known|apply cr2_known| |apply mos_known].
  exfalso. exact (N t eq_refl).
Qed.
Theorem decode_known : forall powf parse_f32 l file img, decode powf parse_f32 l file = Ok img ->
  exists d, get_decoder l (buffer_new file) (zlen file) = Ok d /\ ((forall t, d <> DTiff DNG t) -> known l (buffer_new file) d img).
Proof.
  intros powf parse_f32 l file img H. unfold decode in H. cbv zeta in H. apply bind_inv in H. destruct H as [d [D H]]. exists d. split; [exact D|].
  intros N. eapply image_known; [exact H|exact N].
Qed.

(** The database *)
Definition known_to (db : list table) (file : list Z) (d : decoder) (img : rawimage f32) : Prop :=
  exists decl cam, declared db file img d decl /\ describes decl cam /\
    reports img cam /\ reports_blacks d img cam /\ reports_crops img cam /\ reports_orientation d img cam.
Lemma lookup_last : forall db l make model mode cam, is_toml db -> loader_new db = Ok l -> find_camera l make model mode = Some cam ->
  exists decl, last_with (fun d => key d = (make, model, mode)) db decl /\ describes decl cam.
Proof.
  intros db l make model mode cam T L F. pose proof (C29_lookup db l make model mode T L) as K. rewrite F in K.
  destruct K as [b [d [a [E [D [Ky N]]]]]]. exists d. split; [|exact D]. exists b, a. split; [exact E|]. split; [exact Ky|exact N].
Qed.
Lemma naked_last : forall db l n cam, is_toml db -> loader_new db = Ok l -> 0 < n -> find_naked l n = Some cam ->
  exists decl, last_with (fun d => says_size d n) db decl /\ describes decl cam.
Proof.
  intros db l n cam T L P F. pose proof (C29_naked db l n T L P) as K. rewrite F in K.
  destruct K as [b [d [a [E [D [Ky N]]]]]]. exists d. split; [|exact D]. exists b, a. split; [exact E|]. split; [exact Ky|exact N].
Qed.
Lemma lib_decode_inv : forall powf parse_f32 db file img, lib_decode powf parse_f32 db file = Ok img ->
  exists l, loader_new db = Ok l /\ decode powf parse_f32 l file = Ok img.
Proof.
  intros powf parse_f32 db file img H. unfold lib_decode in H. apply bind_inv in H. destruct H as [l [L H]]. exists l. split; [exact L|].
  unfold decode_safe in H. destruct (decode powf parse_f32 l file); congruence.
Qed.
Theorem lib_known : forall powf parse_f32 db file img, bytes file -> file <> [] -> is_toml db -> lib_decode powf parse_f32 db file = Ok img ->
  exists l d, loader_new db = Ok l /\ get_decoder l (buffer_new file) (zlen file) = Ok d /\ ((forall t, d <> DTiff DNG t) -> known_to db file d img).
Proof.
  intros powf parse_f32 db file img B NE T H. destruct (lib_decode_inv _ _ _ _ _ H) as [l [L H']]. destruct (decode_known _ _ _ _ _ H') as [d [D K]].
  exists l, d. split; [exact L|]. split; [exact D|]. intros N. destruct (K N) as [cam [Tb [R [Rb [Rc Ro]]]]].
  inversion Tb as [d0 make model mode cam0 S F E1 E2|cam0 E1 E2]; subst.
  - destruct (lookup_last db l make model mode cam T L F) as [decl [Ld De]]. exists decl, cam. split; [|auto]. eapply declared_name; [exact S|exact Ld].
  - apply C28_headerless in D; [|exact B]. destruct D as [_ [F _]].
    destruct (naked_last db l (zlen file) cam T L) as [decl [Ld De]]; [destruct file as [|x r]; [congruence|unfold zlen; cbn [length]; lia]|exact F|].
    exists decl, cam. split; [|auto]. apply declared_size. exact Ld.
Qed.
(** DNG *)
Lemma dng_known : forall l buf t, always (fun img => exists make model, dng_reports l t img make model) (dng_image l buf t).
Proof.
  intros. unfold dng_image. do 6 (apply always_bind; intros ? ?). cbv zeta. do 2 (apply always_bind; intros ? ?). apply always_bind. intros [[[[make model] cmake] cmodel] o] HN.
  do 6 (apply always_bind; intros ? ?). apply always_Ok. unfold dng_names in HN. destruct (check_supported l t) as [cam|m| |] eqn:C; try discriminate.
  - unfold check_supported in C. destruct (supported_inv _ _ _ _ C) as [mk [md [cam' [o' [T1 [T2 [F [-> O]]]]]]]]. injection HN as <- <- <- <- <-.
    exists mk, md. constructor; cbn [i_make i_model i_clean_make i_clean_model i_orientation]; try assumption; [rewrite F; reflexivity|].
    apply orientation_inv in O. destruct (find_entry t T_Orientation); [destruct O as [v [Ev ->]]; exists v; split; [exact Ev|reflexivity]|subst o'; reflexivity].
  - apply bind_inv in HN. destruct HN as [e1 [E1 HN]]. apply bind_inv in HN. destruct HN as [mk [E2 HN]].
    apply bind_inv in HN. destruct HN as [e2 [E3 HN]]. apply bind_inv in HN. destruct HN as [md [E4 HN]]. apply bind_inv in HN. destruct HN as [o' [E6 HN]].
    injection HN as <- <- <- <- <-. unfold check_supported, check_supported_with_mode in C. rewrite E1, E3 in C. cbn [bind] in C. rewrite E2 in C. cbn [bind] in C.
    rewrite E4 in C. cbn [bind] in C. rewrite E6 in C. unfold fetch_tag in E1, E3. destruct (find_entry t T_Make) eqn:F1; [|discriminate]. destruct (find_entry t T_Model) eqn:F2; [|discriminate].
    injection E1 as ->. injection E3 as ->. exists mk, md. constructor; cbn [i_make i_model i_clean_make i_clean_model i_orientation].
    + exists e1. split; assumption.
    + exists e2. split; assumption.
    + unfold check_supported_with_everything in C. destruct (find_camera l mk md ""); [cbn in C; discriminate|reflexivity].
    + apply orientation_inv in E6. destruct (find_entry t T_Orientation); [destruct E6 as [v [Ev ->]]; exists v; split; [exact Ev|reflexivity]|subst o'; reflexivity].
Qed.
Theorem decode_dng : forall powf parse_f32 l file t img, get_decoder l (buffer_new file) (zlen file) = Ok (DTiff DNG t) ->
  decode powf parse_f32 l file = Ok img -> exists make model, dng_reports l t img make model.
Proof.
  intros powf parse_f32 l file t img D H. unfold decode in H. cbv zeta in H. rewrite D in H. cbn [bind decoder_image] in H. eapply dng_known. exact H.
Qed.
End Known.
