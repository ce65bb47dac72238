(** Proofs about the recognition of formats. *)
From Coq Require Import String Ascii ZArith List Bool Lia ZifyBool ZifyNat.
From Verif Require Import Base Num F32 Bytes Tiff Ciff Image Camera Clients Decoder Dec_Header Dispatch Spec_Bits Spec_Tiff Spec_Dispatch P_Base P_Bits P_Tiff1 P_Huff4.
Import ListNotations.
Local Open Scope Z_scope.
Ltac Zify.zify_post_hook ::= Z.div_mod_to_equations.

Lemma same_bytes_eq : forall a b, same_bytes a b = true <-> a = b.
Proof.
  induction a as [|x a IH]; intros [|y b]; cbn; split; intros H; try discriminate; auto.
  - apply andb_prop in H. destruct H as [H1 H2]. apply Z.eqb_eq in H1. apply IH in H2. congruence.
  - injection H as -> ->. rewrite Z.eqb_refl. apply IH. reflexivity.
Qed.
Lemma skipn_plus : forall {A} n m (l : list A), skipn (n + m) l = skipn m (skipn n l).
Proof. induction n as [|n IH]; intros m [|x l]; cbn; auto. destruct m; reflexivity. Qed.
Lemma zeros_last : forall n k, last (firstn k (zeros n)) 0 = 0.
Proof.
  intros n. unfold zeros. generalize (Z.to_nat n). induction n0 as [|m IH]; intros [|k]; try reflexivity.
  cbn [repeat firstn]. specialize (IH k). destruct (firstn k (repeat 0 m)); [reflexivity|exact IH].
Qed.
Lemma last_app : forall {A} (a b : list A) d, b <> [] -> last (a ++ b) d = last b d.
Proof.
  induction a as [|x a IH]; intros b d H; [reflexivity|]. cbn [app last]. rewrite IH by assumption.
  destruct (a ++ b) eqn:E; [|reflexivity]. apply app_eq_nil in E. destruct E; contradiction.
Qed.
Lemma last_firstn_zeros : forall file n w, w <> [] -> last w 0 <> 0 ->
  (firstn (length w) (skipn n (file ++ zeros 16)) = w <-> stands_at file n w).
Proof.
  intros file n w Hw Hl. split; intros H.
  - assert (L : (n + length w <= length file)%nat).
    { destruct (le_lt_dec (n + length w) (length file)) as [L|L]; [exact L|]. exfalso. apply Hl. rewrite <- H.
      rewrite skipn_app, firstn_app. rewrite skipn_length.
      destruct (firstn (length w - (length file - n)) (skipn (n - length file) (zeros 16))) as [|y q] eqn:E.
      - (* too short *)
        exfalso. assert (length w = length (firstn (length w) (skipn n (file ++ zeros 16)))) by (rewrite H; reflexivity).
        rewrite skipn_app, firstn_app, skipn_length, E, app_nil_r, firstn_length, skipn_length in H0.
        destruct w; [contradiction|]. cbn [length] in *. lia.
      - rewrite last_app by discriminate. rewrite <- E.
        assert (Z16 : exists m, skipn (n - length file) (zeros 16) = zeros m).
        { exists (Z.of_nat (16 - (n - length file))). unfold zeros. rewrite Nat2Z.id. change (Z.to_nat 16) with 16%nat.
          generalize (n - length file)%nat. intros k. generalize 16%nat as t. induction k as [|k IH]; intros [|t]; cbn; auto. }
        destruct Z16 as [m ->]. apply zeros_last. }
    exists (firstn n file), (skipn (n + length w) file). split.
    + rewrite <- H at 1. rewrite skipn_app, firstn_app, skipn_length.
      replace (length w - (length file - n))%nat with 0%nat by lia. rewrite firstn_O, app_nil_r.
      rewrite skipn_plus, firstn_skipn, firstn_skipn. reflexivity.
    + rewrite firstn_length. lia.
  - destruct H as [b [a [-> <-]]]. rewrite <- app_assoc, skipn_app, skipn_all, Nat.sub_diag, <- app_assoc. cbn [skipn app].
    rewrite firstn_app, firstn_all, Nat.sub_diag, firstn_O, app_nil_r. reflexivity.
Qed.
Lemma at_is_buffer : forall file n w, w <> [] -> last w 0 <> 0 -> (n + length w <= 16)%nat ->
  exists b, at_is (buffer_new file) (Z.of_nat n) w = Ok b /\ (b = true <-> stands_at file n w).
Proof.
  intros file n w Hw Hl L. unfold at_is, buffer_new. rewrite slice_ok.
  2: { unfold zlen. lia. }
  2: { rewrite zlen_app, zlen_zeros. pose proof (zlen_nonneg file). unfold zlen in *. lia. }
  cbn [bind]. eexists. split; [reflexivity|]. rewrite same_bytes_eq, Nat2Z.id.
  replace (Z.to_nat (Z.of_nat n + zlen w - Z.of_nat n)) with (length w) by (unfold zlen; lia).
  apply last_firstn_zeros; assumption.
Qed.
Lemma bytes_buffer : forall file, bytes file -> bytes (buffer_new file).
Proof. intros file H. apply Forall_app. split; [exact H|]. apply Forall_forall. intros x I. apply repeat_spec in I. subst x. red. lia. Qed.
Lemma is_mrw_buffer : forall (M : Mode) file, bytes file ->
  exists b, is_mrw (buffer_new file) = Ok b /\ (b = true <-> signed file Minolta).
Proof.
  intros M file Hb. unfold is_mrw. rewrite BEu32_spec.
  2: { apply bytes_buffer. exact Hb. }
  2: lia. 2: { unfold buffer_new. rewrite zlen_app, zlen_zeros. pose proof (zlen_nonneg file). lia. }
  cbn [bind]. eexists. split; [reflexivity|]. cbn [signed].
  rewrite <- (last_firstn_zeros file 0 (0 :: codes "MRM")) by (discriminate || (cbv; discriminate)).
  cbn [skipn]. change (length (0 :: codes "MRM")) with 4%nat. change (0 :: codes "MRM") with [0; 77; 82; 77].
  unfold sub_list, buffer_new. cbn [skipn Z.to_nat].
  assert (L : length (firstn 4 (file ++ zeros 16)) = 4%nat).
  { rewrite firstn_length, app_length. change (length (zeros 16)) with 16%nat. lia. }
  assert (B : bytes (firstn 4 (file ++ zeros 16))) by (apply Forall_firstn, (bytes_buffer file Hb)).
  destruct (firstn 4 (file ++ zeros 16)) as [|a [|b [|c [|d [|]]]]]; try discriminate.
  apply Forall_inv_tail in B as B1. apply Forall_inv_tail in B1 as B2. apply Forall_inv_tail in B2 as B3.
  apply Forall_inv in B, B1, B2, B3. cbn [big_endian_value fold_left].
  split; intros H.
  - apply Z.eqb_eq in H. unfold big_endian_value in H. cbn in H. unfold byte in *. assert (a = 0 /\ b = 77 /\ c = 82 /\ d = 77) by lia.
    intuition congruence.
  - injection H as -> -> -> ->. reflexivity.
Qed.

Lemma lookup_make_written : forall make f, lookup_make makes make = Some f <-> In make (written_by f).
Proof.
  intros make f. split.
  - unfold makes. cbn [lookup_make]. intros H.
    repeat match type of H with (if String.eqb make ?k then _ else _) = _ =>
      destruct (String.eqb_spec make k) as [-> | _]; [injection H as <-; cbn [written_by In]; tauto|] end. discriminate.
  - intros H. destruct f; cbn [written_by In] in H;
      repeat (destruct H as [<- | H]; [reflexivity|]); destruct H.
Qed.

Section Recognise.
Context {M : Mode}.
Lemma recognise : forall file, bytes file -> exists m c a x,
  is_mrw (buffer_new file) = Ok m /\ is_ciff (buffer_new file) = Ok c /\ is_ari (buffer_new file) = Ok a /\
  is_x3f (buffer_new file) = Ok x /\
  (m = true <-> signed file Minolta) /\ (c = true <-> signed file CanonCiff) /\ (a = true <-> signed file Arri) /\ (x = true <-> signed file Sigma).
Proof.
  intros file Hb.
  destruct (is_mrw_buffer M file Hb) as [m [Em Hm]].
  destruct (at_is_buffer file 6 (codes "HEAPCCDR")) as [c [Ec Hc]]; [discriminate|cbv; discriminate|cbv; lia|].
  destruct (at_is_buffer file 0 (codes "ARRI")) as [a [Ea Ha]]; [discriminate|cbv; discriminate|cbv; lia|].
  destruct (at_is_buffer file 0 (codes "FOVb")) as [x [Ex Hx]]; [discriminate|cbv; discriminate|cbv; lia|].
  exists m, c, a, x. repeat split; try assumption; try apply Hm; try apply Hc; try apply Ha; try apply Hx.
Qed.
Lemma container_total : forall file, bytes file -> exists c, container_of file c.
Proof.
  intros file Hb. destruct (recognise file Hb) as [m [c [a [x [_ [_ [_ [_ [Hm [Hc [Ha Hx]]]]]]]]]]].
  destruct m; [exists Minolta|destruct c; [exists CanonCiff|destruct a; [exists Arri|destruct x; [exists Sigma|exists NoSignature]]]];
  (split; [tauto || exact I|intros [| | | |] L; cbn [rank] in L; try lia; intuition congruence]).
Qed.
End Recognise.
Lemma container_unique : forall file c c', container_of file c -> container_of file c' -> c = c'.
Proof.
  intros file c c' [S1 L1] [S2 L2].
  destruct (Nat.lt_trichotomy (rank c) (rank c')) as [L|[L|L]].
  - destruct (L2 c L S1).
  - destruct c, c'; try discriminate; reflexivity.
  - destruct (L1 c' L S2).
Qed.

Section Get.
Context {M : Mode}.
(** After the signatures *)
Definition by_content (l : loader) (file : list Z) : res decoder :=
  match ifd_new_file (buffer_new file) with
  | Ok tiff => by_tiff l (zlen file) tiff
  | Err _ => by_size l (zlen file)
  | Panic => Panic
  | Loop => Loop
  end.
Lemma get_decoder_by : forall l file c, bytes file -> container_of file c ->
  get_decoder l (buffer_new file) (zlen file) =
  match c with
  | Minolta => d <- mrw_new (buffer_new file) ;; Ok (DMrw d)
  | CanonCiff => d <- cifd_new_file (buffer_new file) (zlen file) ;; Ok (DCrw d)
  | Arri => Ok DAri
  | Sigma => d <- x3f_new (buffer_new file) (zlen file) ;; Ok (DX3f d)
  | NoSignature => by_content l file
  end.
Proof.
  intros l file k Hb [S1 L1]. unfold get_decoder, by_content.
  destruct (recognise file Hb) as [m [c [a [x [-> [-> [-> [-> [Hm [Hc [Ha Hx]]]]]]]]]]]. cbn [bind].
  assert (P : forall k' b, (rank k' < rank k)%nat -> (b = true <-> signed file k') -> b = false).
  { intros k' b L H. destruct b; [|reflexivity]. destruct (L1 k' L). apply H. reflexivity. }
  assert (Q : forall k' b, k' = k -> (b = true <-> signed file k') -> b = true) by (intros k' b -> H; apply H; exact S1).
  destruct k;
    repeat match goal with
    | H : ?b = true <-> signed file ?k' |- _ =>
      first [ rewrite (P k' b ltac:(cbn; lia) H) | rewrite (Q k' b eq_refl H) ]; clear H end; reflexivity.
Qed.

Lemma by_content_kind : forall l file d, by_content l file = Ok d -> container_read d = NoSignature.
Proof.
  intros l file d H. unfold by_content in H. destruct (ifd_new_file _) as [t| | |]; try discriminate.
  - unfold by_tiff, by_size in H.
    repeat match type of H with
    | (if ?b then _ else _) = _ => destruct b
    | bind _ _ = _ => inv_bind H
    | match ?o with Some _ => _ | None => _ end = _ => destruct o
    end; try discriminate; apply Ok_inj in H; subst d; reflexivity.
  - unfold by_size in H. destruct (find_naked _ _); [|discriminate]. apply Ok_inj in H; subst d; reflexivity.
Qed.
Lemma container_theorem : forall l file d, bytes file -> get_decoder l (buffer_new file) (zlen file) = Ok d ->
  container_of file (container_read d).
Proof.
  intros l file d Hb H. destruct (container_total file Hb) as [c Hc].
  rewrite (get_decoder_by l file c Hb Hc) in H. replace (container_read d) with c; [exact Hc|]. destruct c.
  - inv_bind H. apply Ok_inj in H; subst d. reflexivity.
  - inv_bind H. apply Ok_inj in H; subst d. reflexivity.
  - apply Ok_inj in H; subst d. reflexivity.
  - inv_bind H. apply Ok_inj in H; subst d. reflexivity.
  - symmetry. apply (by_content_kind l file d H).
Qed.

(** ** TIFF *)
Lemma has_find : forall t tag, has_entry t tag = true <-> carries t tag.
Proof. exact has_some. Qed.
Lemma fetch_has : forall t tag, fetch_tag t tag = match find_entry t tag with Some en => Ok en | None => Err "Couldn't find tag"%string end.
Proof. reflexivity. Qed.
Lemma text_tagged : forall t tag s, text t tag s -> carries t tag.
Proof. intros t tag s [en [F _]]. apply has_find. unfold has_entry. rewrite F. reflexivity. Qed.
Lemma text_unique : forall t tag s s', text t tag s -> text t tag s' -> s = s'.
Proof. intros t tag s s' [en [F G]] [en' [F' G']]. rewrite F in F'. injection F' as <-. rewrite G in G'. apply Ok_inj in G'. exact G'. Qed.
Lemma fetch_text : forall t tag (B : Type) (k : string -> res B) r, (en <- fetch_tag t tag ;; s <- get_string en ;; k s) = Ok r <->
  exists s, text t tag s /\ k s = Ok r.
Proof.
  intros t tag B k r. unfold fetch_tag, text. split.
  - destruct (find_entry t tag) as [en|]; [|discriminate]. cbn [bind]. intros H. inv_bind H. eauto 6.
  - intros [s [[en [-> G]] K]]. cbn [bind]. rewrite G. exact K.
Qed.
Definition not560 (t : ifd) : Prop := carries t Model -> exists m, text t Model m /\ m <> "DCS560C"%string.
Lemma dcs560_spec : forall t b,
  (if has_entry t T_Model then en <- fetch_tag t T_Model ;; s <- get_string en ;; Ok (String.eqb s "DCS560C") else Ok false) = Ok b <->
  (if b : bool then text t Model "DCS560C" else not560 t).
Proof.
  intros t b. change T_Model with Model. unfold not560. destruct (has_entry t Model) eqn:Hh.
  - rewrite fetch_text. split.
    + intros [s [T E]]. apply Ok_inj in E. destruct (String.eqb_spec s "DCS560C") as [-> | N]; subst b; [exact T|]. eauto.
    + destruct b; intros H; [exists "DCS560C"%string; auto|].
      destruct (H (proj1 (has_find t Model) Hh)) as [m [T N]]. exists m. split; [exact T|]. f_equal. apply String.eqb_neq. exact N.
  - assert (~ carries t Model) as N by (rewrite <- has_find, Hh; discriminate). destruct b; split; intros H; try discriminate.
    + destruct N. apply (text_tagged _ _ _ H).
    + intros X; contradiction.
    + reflexivity.
Qed.
Lemma not560_excl : forall t, not560 t -> text t Model "DCS560C" -> False.
Proof. intros t N H. destruct (N (text_tagged _ _ _ H)) as [m [T X]]. apply X. apply (text_unique t Model); assumption. Qed.
Lemma by_size_tiff : forall l n f t, by_size l n <> Ok (DTiff f t).
Proof. intros. unfold by_size. destruct (find_naked l n); discriminate. Qed.
Lemma by_size_naked : forall l n cam, by_size l n = Ok (DNaked cam) <-> find_naked l n = Some cam.
Proof. intros. unfold by_size. destruct (find_naked l n); split; intros H; try discriminate; congruence. Qed.

Lemma by_tiff_format : forall l n t f t', by_tiff l n t = Ok (DTiff f t') <-> t' = t /\ tiff_format t f.
Proof.
  intros l n t f t'. unfold by_tiff. change T_DNGVersion with DNGVersion.
  destruct (has_entry t DNGVersion) eqn:Hd.
  { apply has_find in Hd. split.
    - intros H. apply Ok_inj in H. injection H as <- <-. split; [reflexivity|]. constructor. exact Hd.
    - intros [-> H]. inversion H; subst; try contradiction. reflexivity. }
  assert (Nd : ~ carries t DNGVersion) by (rewrite <- has_find, Hd; discriminate).
  split.
  - intros H. inv_bind H. apply dcs560_spec in E. destruct v.
    { apply Ok_inj in H. injection H as <- <-. split; [reflexivity|]. apply kodak_560; assumption. }
    destruct (has_entry t T_Make) eqn:Hm.
    { apply fetch_text in H. destruct H as [s [T K]]. destruct (lookup_make makes s) eqn:L; [|discriminate].
      apply Ok_inj in K. injection K as <- <-. split; [reflexivity|]. apply (says_make t s); auto. apply lookup_make_written. exact L. }
    destruct (has_entry t T_Software) eqn:Hs.
    { apply fetch_text in H. destruct H as [s [T K]]. destruct (String.eqb_spec s "Camera Library") as [-> | N].
      - apply Ok_inj in K. injection K as <- <-. split; [reflexivity|]. apply says_software; auto.
        intros X. apply has_find in X. change Make with T_Make in X. congruence.
      - destruct (by_size_tiff _ _ _ _ K). }
    destruct (by_size_tiff _ _ _ _ H).
  - intros [-> H]. inversion H; subst; try contradiction.
    + rewrite (proj2 (dcs560_spec t true) H1). reflexivity.
    + rewrite (proj2 (dcs560_spec t false) H1). cbn [bind]. change T_Make with Make. apply text_tagged in H2 as X. apply has_find in X. rewrite X.
      apply fetch_text. exists make. split; [exact H2|]. apply lookup_make_written in H3. rewrite H3. reflexivity.
    + rewrite (proj2 (dcs560_spec t false) H1). cbn [bind]. change T_Make with Make. change T_Software with Software.
      destruct (has_entry t Make) eqn:X; [apply has_find in X; contradiction|].
      apply text_tagged in H3 as Y. apply has_find in Y. rewrite Y. apply fetch_text. eexists. split; [exact H3|]. reflexivity.
Qed.
Lemma by_tiff_naked : forall l n t cam, by_tiff l n t = Ok (DNaked cam) <-> anonymous t /\ find_naked l n = Some cam.
Proof.
  intros l n t cam. unfold by_tiff, anonymous. change T_DNGVersion with DNGVersion. fold (not560 t).
  destruct (has_entry t DNGVersion) eqn:Hd.
  { apply has_find in Hd. split; [discriminate|tauto]. }
  assert (Nd : ~ carries t DNGVersion) by (rewrite <- has_find, Hd; discriminate).
  split.
  - intros H. inv_bind H. apply dcs560_spec in E. destruct v; [discriminate|].
    destruct (has_entry t T_Make) eqn:Hm.
    { apply fetch_text in H. destruct H as [s [T K]]. destruct (lookup_make makes s) eqn:L; discriminate. }
    assert (Nm : ~ carries t Make) by (rewrite <- has_find; change Make with T_Make; congruence).
    destruct (has_entry t T_Software) eqn:Hs.
    { apply fetch_text in H. destruct H as [s [T K]]. destruct (String.eqb_spec s "Camera Library") as [-> | N]; [discriminate|].
      apply by_size_naked in K. repeat split; auto. eauto. }
    assert (Ns : ~ carries t Software) by (rewrite <- has_find; change Software with T_Software; congruence).
    apply by_size_naked in H. repeat split; auto. intros; contradiction.
  - intros [[_ [N5 [Nm Ns]]] F]. rewrite (proj2 (dcs560_spec t false) N5). cbn [bind]. change T_Make with Make. change T_Software with Software.
    destruct (has_entry t Make) eqn:X; [apply has_find in X; contradiction|].
    destruct (has_entry t Software) eqn:Y; [|apply by_size_naked; exact F].
    apply has_find in Y. destruct (Ns Y) as [s [T K]]. apply fetch_text. exists s. split; [exact T|].
    apply String.eqb_neq in K. rewrite K. apply by_size_naked. exact F.
Qed.

Lemma tiff_theorem : forall l file f t, bytes file ->
  get_decoder l (buffer_new file) (zlen file) = Ok (DTiff f t) <->
  container_of file NoSignature /\ ifd_new_file (buffer_new file) = Ok t /\ tiff_format t f.
Proof.
  intros l file f t Hb. split.
  - intros H. pose proof (container_theorem l file _ Hb H) as C. cbn [container_read] in C.
    rewrite (get_decoder_by l file _ Hb C) in H. unfold by_content in H. split; [exact C|].
    destruct (ifd_new_file (buffer_new file)) as [t'| | |]; try discriminate.
    + apply by_tiff_format in H. destruct H as [-> H]. auto.
    + destruct (by_size_tiff _ _ _ _ H).
  - intros [C [P F]]. rewrite (get_decoder_by l file _ Hb C). unfold by_content. rewrite P. apply by_tiff_format. auto.
Qed.
Lemma naked_theorem : forall l file cam, bytes file ->
  get_decoder l (buffer_new file) (zlen file) = Ok (DNaked cam) <->
  container_of file NoSignature /\ find_naked l (zlen file) = Some cam /\
  match ifd_new_file (buffer_new file) with Ok t => anonymous t | Err _ => True | _ => False end.
Proof.
  intros l file cam Hb. split.
  - intros H. pose proof (container_theorem l file _ Hb H) as C. cbn [container_read] in C.
    rewrite (get_decoder_by l file _ Hb C) in H. unfold by_content in H. split; [exact C|].
    destruct (ifd_new_file (buffer_new file)) as [t'| | |]; try discriminate.
    + apply by_tiff_naked in H. tauto.
    + apply by_size_naked in H. auto.
  - intros [C [F P]]. rewrite (get_decoder_by l file _ Hb C). unfold by_content.
    destruct (ifd_new_file (buffer_new file)) as [t'| | |]; try contradiction.
    + apply by_tiff_naked. auto.
    + apply by_size_naked. auto.
Qed.
(** Not a TIFF file at all *)
Lemma not_tiff : forall file, bytes file -> ~ tiff_like file -> exists m, ifd_new_file (buffer_new file) = Err m.
Proof.
  intros file Hb N. unfold ifd_new_file, tiff_like in *.
  destruct (at_is_buffer file 0 (codes "FUJIFILM")) as [b [E Hf]]; [discriminate|cbv; discriminate|cbv; lia|].
  change (at_is (buffer_new file) 0 W_FUJIFILM = Ok b) in E. rewrite E. cbn [bind].
  destruct b; [tauto|]. unfold ifd_new_root.
  rewrite LEu16_spec.
  2: { apply bytes_buffer. exact Hb. }
  2: lia. 2: { unfold buffer_new. rewrite zlen_app, zlen_zeros. pose proof (zlen_nonneg file). lia. }
  cbn [bind]. unfold sub_list. cbn [skipn Z.to_nat].
  rewrite <- (last_firstn_zeros file 0 (codes "II")) in N by (discriminate || (cbv; discriminate)).
  rewrite <- (last_firstn_zeros file 0 (codes "MM")) in N by (discriminate || (cbv; discriminate)).
  cbn [skipn] in N. change (length (codes "II")) with 2%nat in N. change (length (codes "MM")) with 2%nat in N. fold (buffer_new file) in N.
  assert (L : length (firstn 2 (buffer_new file)) = 2%nat).
  { unfold buffer_new. rewrite firstn_length, app_length. change (length (zeros 16)) with 16%nat. lia. }
  assert (B : bytes (firstn 2 (buffer_new file))) by (apply Forall_firstn, (bytes_buffer file Hb)).
  destruct (firstn 2 (buffer_new file)) as [|x [|y [|]]]; try discriminate.
  apply Forall_inv_tail in B as B1. apply Forall_inv in B, B1. unfold byte in *.
  change (codes "II") with [73; 73] in N. change (codes "MM") with [77; 77] in N.
  cbn [little_endian_value].
  match goal with |- context [?v =? 0x4949] => destruct (Z.eqb_spec v 0x4949) as [X|X] end.
  { exfalso. apply N. left. assert (x = 73 /\ y = 73) by (unfold byte in *; lia). intuition congruence. }
  match goal with |- context [?v =? 0x4d4d] => destruct (Z.eqb_spec v 0x4d4d) as [Y|Y] end.
  { exfalso. apply N. right. left. assert (x = 77 /\ y = 77) by (unfold byte in *; lia). intuition congruence. }
  cbn [bind]. eauto.
Qed.
Lemma unknown_theorem : forall l file, bytes file -> container_of file NoSignature -> ~ tiff_like file ->
  match find_naked l (zlen file) with
  | Some cam => get_decoder l (buffer_new file) (zlen file) = Ok (DNaked cam)
  | None => exists m, get_decoder l (buffer_new file) (zlen file) = Err m
  end.
Proof.
  intros l file Hb C N. rewrite (get_decoder_by l file _ Hb C). unfold by_content.
  destruct (not_tiff file Hb N) as [m ->]. unfold by_size. destruct (find_naked l (zlen file)); eauto.
Qed.
Lemma stands_len : forall file n w, stands_at file n w -> (n + length w <= length file)%nat.
Proof. intros file n w [b [a [-> <-]]]. rewrite !app_length. lia. Qed.
Lemma tiny_theorem : forall file, (length file < 2)%nat -> container_of file NoSignature /\ ~ tiff_like file.
Proof.
  intros file L. split.
  - split; [exact I|]. intros [| | | |] R; cbn [rank] in R; try lia; cbn [signed]; intros H; apply stands_len in H; cbn in H; lia.
  - intros [H|[H|H]]; apply stands_len in H; cbn in H; lia.
Qed.
End Get.
Lemma stands_prefix : forall f1 f2 k n w, (n + length w <= k)%nat -> firstn k f1 = firstn k f2 -> stands_at f1 n w -> stands_at f2 n w.
Proof.
  intros f1 f2 k n w L E [b [a [-> Hb]]].
  exists (firstn n f2), (skipn (n + length w) f2).
  assert (K : (length (b ++ w) <= k)%nat) by (rewrite app_length; lia).
  assert (P : firstn (n + length w) f2 = b ++ w).
  { assert (firstn (n + length w) (firstn k f2) = firstn (n + length w) f2) by (rewrite firstn_firstn; f_equal; lia).
    rewrite <- H, <- E, firstn_firstn. replace (Nat.min (n + length w) k) with (length (b ++ w)) by (rewrite app_length; lia).
    rewrite app_assoc, firstn_app, Nat.sub_diag, firstn_O, app_nil_r, firstn_all. reflexivity. }
  assert (P2 : firstn n f2 = b).
  { assert (firstn n (firstn (n + length w) f2) = firstn n f2) by (rewrite firstn_firstn; f_equal; lia).
    rewrite <- H, P, <- Hb, firstn_app, Nat.sub_diag, firstn_O, app_nil_r, firstn_all. reflexivity. }
  split; [|rewrite P2; exact Hb]. rewrite P2, app_assoc, <- P. symmetry. apply firstn_skipn.
Qed.
Lemma signed_prefix : forall f1 f2 c, firstn 14 f1 = firstn 14 f2 -> signed f1 c -> signed f2 c.
Proof.
  intros f1 f2 [| | | |] E H; cbn [signed] in *; try exact I; (eapply (stands_prefix f1 f2 14); [cbn; lia|exact E|exact H]).
Qed.
Lemma container_prefix : forall f1 f2 c, firstn 14 f1 = firstn 14 f2 -> container_of f1 c -> container_of f2 c.
Proof.
  intros f1 f2 c E [S1 L1]. split; [apply (signed_prefix f1); assumption|].
  intros c' R H. apply (L1 c' R). apply (signed_prefix f2); [symmetry|]; assumption.
Qed.
Lemma container_exactly : forall file, bytes file -> exists! c, container_of file c.
Proof.
  intros file Hb. destruct (@container_total true file Hb) as [c Hc]. exists c. split; [exact Hc|].
  intros c' H. apply (container_unique file); assumption.
Qed.
Lemma fuji_short : exists file, bytes file /\ container_of file NoSignature /\
  forall (M : Mode) l, get_decoder l (buffer_new file) (zlen file) = Panic.
Proof.
  exists (codes "FUJIFILM"). split; [|split].
  - repeat (constructor; [cbv; split; congruence|]). constructor.
  - split; [exact I|]. intros [| | | |] L; cbn in L; try lia; cbn [signed]; intros H.
    + destruct H as [b [a [E H]]]. destruct b; [discriminate|discriminate H].
    + apply stands_len in H. cbn in H. lia.
    + destruct H as [b [a [E H]]]. destruct b; [discriminate|discriminate H].
    + destruct H as [b [a [E H]]]. destruct b; [discriminate|discriminate H].
  - intros [|] l; reflexivity.
Qed.
