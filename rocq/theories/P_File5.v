(** Checks that a concrete file is one of those C53 and C54 are about. *)
From Coq Require Import String Ascii ZArith List Bool Lia ZifyBool.
From Verif Require Import Base Num F32 Tiff Transform Image Camera Spec_Bits Spec_Image Spec_Tiff Spec_Camera Spec_Known Spec_Ljpeg Spec_Stream Spec_Pana Spec_Meta Spec_File Spec_Dng.
From Verif Require Import P_Base P_Tiff3 P_Crw4 P_Srw3b.
Import ListNotations.
Local Open Scope Z_scope.

Fixpoint distinct (l : list Z) : bool := match l with [] => true | a :: t => negb (existsb (Z.eqb a) t) && distinct t end.
Lemma distinct_ok : forall l, distinct l = true -> NoDup l.
Proof.
  induction l as [|a t IH]; intros H; [constructor|]. cbn [distinct] in H. apply andb_prop in H. destruct H as [H1 H2]. constructor; [|apply IH; exact H2].
  intros Hin. assert (existsb (Z.eqb a) t = true) as E by (apply existsb_exists; exists a; split; [exact Hin|apply Z.eqb_refl]). rewrite E in H1. discriminate H1.
Qed.
Lemma absent_ok : forall fs tag, existsb (Z.eqb tag) (map f_tag fs) = false -> has_no fs tag.
Proof. intros fs tag H Hin. assert (existsb (Z.eqb tag) (map f_tag fs) = true) as E by (apply existsb_exists; exists tag; split; [exact Hin|apply Z.eqb_refl]). rewrite E in H. discriminate H. Qed.
Definition kept (f : field) : bool :=
  known_tag (f_tag f) && negb (existsb (Z.eqb (f_tag f)) [0x014A; 0x8769; 0xF000; 0x8290; 0xFE00; 0x927C]) && (1 <=? f_typ f) && (f_typ f <=? 13).
Lemma kept_ok : forall fs, forallb kept fs = true -> Forall kept_field fs.
Proof.
  intros fs H. apply Forall_forall. intros f Hf. pose proof (proj1 (forallb_forall _ _) H f Hf) as K. unfold kept in K. apply andb_prop in K. destruct K as [K K4]. apply andb_prop in K. destruct K as [K K3].
  apply andb_prop in K. destruct K as [K1 K2]. split; [apply known_In; exact K1|]. split; [|lia]. intros Hin.
  assert (existsb (Z.eqb (f_tag f)) [0x014A; 0x8769; 0xF000; 0x8290; 0xFE00; 0x927C] = true) as E by (apply existsb_exists; exists (f_tag f); split; [exact Hin|apply Z.eqb_refl]).
  rewrite E in K2. discriminate K2.
Qed.
Definition prints (s : string) : bool := forallb (fun c => (32 <=? c) && (c <? 127)) (codes_of s) && negb (hd 0 (codes_of s) =? 32) && negb (last (codes_of s) 0 =? 32).
Lemma prints_ok : forall s, prints s = true -> printable s.
Proof.
  intros s H. unfold prints in H. apply andb_prop in H. destruct H as [H H3]. apply andb_prop in H. destruct H as [H1 H2]. split; [|lia].
  apply Forall_forall. intros c Hc. pose proof (proj1 (forallb_forall _ _) H1 c Hc) as K. cbv beta in K. lia.
Qed.
Lemma fields_check : forall fs make model, forallb kept fs = true -> distinct (map f_tag fs) = true -> (length fs <=? 4000)%nat = true ->
  In (text_field T_Make make) fs -> prints make = true -> In (text_field T_Model model) fs -> prints model = true -> camera_fields fs make model.
Proof.
  intros fs make model H1 H2 H3 H4 H5 H6 H7. split; try assumption.
  - apply kept_ok. exact H1.
  - apply distinct_ok. exact H2.
  - apply Nat.leb_le in H3. lia.
  - apply prints_ok. exact H5.
  - apply prints_ok. exact H7.
Qed.
Definition same_field (f g : field) : bool :=
  (f_tag f =? f_tag g) && (f_typ f =? f_typ g) && if list_eq_dec Z.eq_dec (f_vals f) (f_vals g) then true else false.
Lemma in_check : forall f fs, existsb (same_field f) fs = true -> In f fs.
Proof.
  intros [t y v] fs H. apply existsb_exists in H. destruct H as ([t' y' v'] & Hin & H). unfold same_field in H. cbn [f_tag f_typ f_vals] in H.
  destruct (list_eq_dec Z.eq_dec v v') as [-> |]; [|rewrite andb_false_r in H; discriminate H].
  replace t with t' by lia. replace y with y' by lia. exact Hin.
Qed.
Lemma tag_check : forall tag fs, existsb (Z.eqb tag) (map f_tag fs) = true -> In tag (map f_tag fs).
Proof. intros tag fs H. apply existsb_exists in H. destruct H as (x & Hx & E). apply Z.eqb_eq in E. subst. exact Hx. Qed.
Ltac member := first [apply in_check; vm_compute; reflexivity|apply tag_check; vm_compute; reflexivity].
(** A database of one camera *)
Definition one_camera (make model mode : string) : list table :=
  [[("make", VStr make); ("model", VStr model); ("mode", VStr mode); ("clean_make", VStr "m"); ("clean_model", VStr "a"); ("whitepoint", VInt 4095); ("blackpoint", VInt 7)]]%string.
Lemma camera_check : forall (M : Mode) db make model mode,
  match loader_new db with
  | Ok l => match find_camera l make model mode with Some cam => (snd (c_blackareah cam) =? 0) && (snd (c_blackareav cam) =? 0) && (e0 (c_blacks cam) =? 7) && String.eqb (c_model cam) model | None => false end
  | _ => false
  end = true ->
  exists l cam, loader_new db = Ok l /\ find_camera l make model mode = Some cam /\ no_black_area cam /\ c_model cam = model.
Proof.
  intros M db make model mode H. destruct (loader_new db) as [l| | |]; try discriminate H. exists l. destruct (find_camera l make model mode) as [cam|]; [|discriminate H].
  exists cam. apply andb_prop in H. destruct H as [H H4]. apply andb_prop in H. destruct H as [H _]. apply andb_prop in H. destruct H as [H1 H2].
  split; [reflexivity|]. split; [reflexivity|]. split; [split; lia|]. apply String.eqb_eq. exact H4.
Qed.
Lemma photo_check : forall l mode big fs make model tag gap data cam at_, camera_fields fs make model ->
  Z.of_nat (length (tiff_file big fs ++ gap ++ data)) + 16 < 2 ^ 32 -> bytes data ->
  Z.of_nat (length (tiff_file big fs ++ gap)) = at_ -> has_number fs tag at_ -> has_no fs T_DNGVersion -> model <> "DCS560C"%string -> has_no fs T_Orientation ->
  find_camera l make model mode = Some cam -> no_black_area cam ->
  photo l mode big fs make model tag gap data (tiff_file big fs ++ gap ++ data) Unknown cam.
Proof. intros. split; try assumption; [split; try assumption; [reflexivity|subst at_; assumption]|right; auto]. Qed.
Ltac fields := apply fields_check; [vm_compute; reflexivity|vm_compute; reflexivity|vm_compute; reflexivity|member|vm_compute; reflexivity|member|vm_compute; reflexivity].
Ltac number := first [left; split; [member|lia]|right; split; [member|lia]].
Ltac absent := apply absent_ok; vm_compute; reflexivity.
Ltac photograph := eapply photo_check; [fields|vm_compute; reflexivity|apply bytes_check; vm_compute; reflexivity|vm_compute; reflexivity|number|absent|discriminate|absent|assumption|assumption].
(** Orientation *)
Lemma turned_check : forall v l mode big fs make model tag gap data cam at_, camera_fields fs make model ->
  Z.of_nat (length (tiff_file big fs ++ gap ++ data)) + 16 < 2 ^ 32 -> bytes data ->
  Z.of_nat (length (tiff_file big fs ++ gap)) = at_ -> has_number fs tag at_ -> has_no fs T_DNGVersion -> model <> "DCS560C"%string -> has_number fs T_Orientation v ->
  find_camera l make model mode = Some cam -> no_black_area cam ->
  photo l mode big fs make model tag gap data (tiff_file big fs ++ gap ++ data) (from_u16 (v mod 2 ^ 16)) cam.
Proof. intros. split; try assumption; [split; try assumption; [reflexivity|subst at_; assumption]|left; exists v; auto]. Qed.
Ltac turned v := eapply (turned_check v); [fields|vm_compute; reflexivity|apply bytes_check; vm_compute; reflexivity|vm_compute; reflexivity|number|absent|discriminate|number|assumption|assumption].
Ltac numbers := first [left; split; [member|repeat (apply Forall_cons; [lia|]); constructor]|right; split; [member|repeat (apply Forall_cons; [lia|]); constructor]].
Ltac fractions := split; [member|repeat (apply Forall_cons; [cbn [fst snd]; lia|]); constructor].
Ltac small_samples := repeat (apply Forall_cons; [split; vm_compute; congruence|]); constructor.
Lemma group_check : forall choice byte pic w n,
  forallb (fun g => forallb (fun i =>
    let c := choice g ((i + 1) / 3) in let v := pana_values pic w g in let b := byte g i in let s := pana_shift (choice g) i in
    (0 <=? c) && (c <? 4) && (0 <=? v i) && (v i <? 65536) &&
    if pana_started v i then (b =? 0) && (v i =? pana_before v i) || (0 <? b) && (b <? 256) && (v i =? pana_base s (pana_before v i) + b * 2 ^ s)
    else (0 <=? v i) && (v i <? 4096) && ((12 <=? i) || (v i =? 0) || (16 <=? v i))) (upto 14)) (upto n) = true ->
  forall g, 0 <= g < n -> pana_group_fits (choice g) (byte g) (pana_values pic w g).
Proof.
  intros choice byte pic w n H g Hg i Hi. unfold pana_pixel_fits, sample.
  pose proof (upto_all 14 _ (upto_all n _ H g Hg) i Hi) as Q. cbv beta zeta in Q. clear H. destruct (pana_started _ i); lia.
Qed.
Lemma zeros_ok : forall n, bytes (repeat 0 n).
Proof. intros n. apply Forall_forall. intros x Hx. apply repeat_spec in Hx. subst. unfold byte. lia. Qed.
Lemma zero_nth : forall n k, nth k (repeat 0 n) 0 = 0.
Proof. induction n as [|n IH]; intros [|k]; cbn; auto. Qed.
Lemma zero_group : forall n split g, pana_group_bytes split (repeat 0 n) g = repeat 0 16.
Proof. intros n split g. unfold pana_group_bytes. erewrite map_ext; [|intros i; apply zero_nth]. reflexivity. Qed.
