(** Checks that a concrete file has the directories that C59 is about. *)
From Coq Require Import String Ascii ZArith List Bool Lia ZifyBool.
From Verif Require Import Base Num F32 Tiff Transform Image Camera Spec_Bits Spec_Tiff Spec_Camera Spec_Known Spec_Meta Spec_File Spec_Tree.
From Verif Require Import P_Base P_Srw3b P_File5.
Import ListNotations.
Local Open Scope Z_scope.

(** ** A file with bytes after it *)
Lemma placed_app : forall file more pos piece, placed file pos piece -> placed (file ++ more) pos piece.
Proof. intros file more pos piece (b & a & -> & H). exists b, (a ++ more). split; [|exact H]. rewrite <- !app_assoc. reflexivity. Qed.
Lemma note_app : forall big file more pos to, note big file pos to -> note big (file ++ more) pos to.
Proof.
  intros big file more pos to H. destruct H as [|a b c H|a b H|H|a b c d e H|a b c H N].
  - apply note_plain.
  - apply (note_nikon _ _ _ a b c). apply placed_app. exact H.
  - apply (note_pentax _ _ _ a b). apply placed_app. exact H.
  - apply note_aoc. apply placed_app. exact H.
  - apply (note_olympus _ _ _ a b c d e). apply placed_app. exact H.
  - apply (note_olymp _ _ _ a b c); [|exact N]. apply placed_app. exact H.
Qed.
Lemma rows_app : forall big file more rs pos, rows_written big file pos rs -> rows_written big (file ++ more) pos rs.
Proof.
  intros big file more rs. induction rs as [|r rs IH]; intros pos H; [exact I|]. destruct H as [(H1 & H2 & H3 & H4 & H5) H6]. split; [|apply IH; exact H6].
  split; [apply placed_app; exact H1|]. split; [intros Q; apply placed_app; auto|]. split; [exact H3|]. split; [exact H4|]. destruct (is_pointer _); [exact H5|]. destruct (_ =? _); [|exact H5].
  destruct H5 as (to & H5 & H7). exists to. split; [apply note_app; exact H5|exact H7].
Qed.
Lemma written_app : forall levels big file more pos next t, written levels big file pos next t -> written levels big (file ++ more) pos next t.
Proof.
  induction levels as [|n IH]; intros big file more pos next [fs subs] (rs & H1 & H2 & H3 & H4 & H5 & H6 & H7 & H8); exists rs;
    (split; [exact H1|split; [exact H2|split; [exact H3|split; [apply placed_app; exact H4|split; [apply rows_app; exact H5|split; [apply placed_app; exact H6|split; [exact H7|]]]]]]]).
  - exact H8.
  - induction H8 as [|to s tos ss (nx & R & W) H8 IH8]; [constructor|]. constructor; [|exact IH8]. exists nx. split; [rewrite app_length; lia|].
    rewrite skipn_app. replace (Z.to_nat (fst to) - length file)%nat with 0%nat by lia. apply IH. exact W.
Qed.
Lemma chained_app : forall big file more ts pos, chained big file pos ts -> chained big (file ++ more) pos ts.
Proof.
  intros big file more ts. induction ts as [|t ts IH]; intros pos H; [exact H|]. destruct ts as [|t' ts]; [apply written_app; exact H|].
  destruct H as (nx & H1 & H2 & H3). exists nx. split; [exact H1|]. split; [apply written_app; exact H2|apply IH; exact H3].
Qed.

(** ** Deciding *)
Fixpoint same (a b : list Z) : bool := match a, b with [], [] => true | x :: a, y :: b => (x =? y) && same a b | _, _ => false end.
Lemma same_ok : forall a b, same a b = true -> a = b.
Proof. induction a as [|x a IH]; intros [|y b] H; try discriminate H; [reflexivity|]. cbn [same] in H. apply andb_prop in H. destruct H as [H1 H2]. apply Z.eqb_eq in H1. rewrite H1, (IH b H2). reflexivity. Qed.
Definition is_placed (file : list Z) (pos : Z) (piece : list Z) : bool :=
  (0 <=? pos) && (pos <=? Z.of_nat (length file)) && same (firstn (length piece) (skipn (Z.to_nat pos) file)) piece.
Lemma is_placed_ok : forall file pos piece, is_placed file pos piece = true -> placed file pos piece.
Proof.
  intros file pos piece H. apply andb_prop in H. destruct H as [H H3]. apply andb_prop in H. destruct H as [H1 H2]. apply same_ok in H3.
  exists (firstn (Z.to_nat pos) file), (skipn (length piece) (skipn (Z.to_nat pos) file)). split; [|rewrite firstn_length; lia].
  rewrite <- H3 at 1. rewrite firstn_skipn. symmetry. apply firstn_skipn.
Qed.
Definition byte_at (file : list Z) (pos : Z) : Z := nth (Z.to_nat pos) file 0.
Definition is_note (big : bool) (file : list Z) (pos : Z) (to : Z * Z) : bool :=
  let at_ k := byte_at file (pos + k) in
  let is k := (fst to =? fst k) && (snd to =? snd k) in
  is (0, pos) ||
  is (pos + 10, 8) && is_placed file pos (codes_of "Nikon" ++ [0; 2; at_ 7; at_ 8; at_ 9] ++ order_mark big) ||
  is (pos, 10) && is_placed file pos (codes_of "PENTAX" ++ [at_ 6; at_ 7] ++ order_mark big) ||
  is (0, pos + 6) && is_placed file pos (codes_of "AOC" ++ [0] ++ order_mark big) ||
  is (0, pos + 12) && is_placed file pos (codes_of "OLYMPUS" ++ [at_ 7; at_ 8; at_ 9; at_ 10; at_ 11]) ||
  is (0, pos + 8) && is_placed file pos (codes_of "OLYMP" ++ [at_ 5; at_ 6; at_ 7]) && negb ((at_ 5 =? 85) && (at_ 6 =? 83)).
Lemma is_note_ok : forall big file pos to, is_note big file pos to = true -> note big file pos to.
Proof.
  intros big file pos [a b] H. unfold is_note in H. cbv zeta beta in H. cbn [fst snd] in H.
  apply orb_prop in H. destruct H as [H|H]; [apply orb_prop in H; destruct H as [H|H]; [apply orb_prop in H; destruct H as [H|H]; [apply orb_prop in H; destruct H as [H|H]; [apply orb_prop in H; destruct H as [H|H]|]|]|]|].
  - replace a with 0 by lia. replace b with pos by lia. apply note_plain.
  - apply andb_prop in H. destruct H as [H P]. replace a with (pos + 10) by lia. replace b with 8 by lia. eapply note_nikon. apply is_placed_ok. exact P.
  - apply andb_prop in H. destruct H as [H P]. replace a with pos by lia. replace b with 10 by lia. eapply note_pentax. apply is_placed_ok. exact P.
  - apply andb_prop in H. destruct H as [H P]. replace a with 0 by lia. replace b with (pos + 6) by lia. eapply note_aoc. apply is_placed_ok. exact P.
  - apply andb_prop in H. destruct H as [H P]. replace a with 0 by lia. replace b with (pos + 12) by lia. eapply note_olympus. apply is_placed_ok. exact P.
  - apply andb_prop in H. destruct H as [H N]. apply andb_prop in H. destruct H as [H P]. replace a with 0 by lia. replace b with (pos + 8) by lia. eapply note_olymp; [apply is_placed_ok; exact P|].
    intros E. injection E as E1 E2. rewrite E1, E2 in N. discriminate N.
Qed.
Fixpoint same_to (a b : list (Z * Z)) : bool := match a, b with [], [] => true | x :: a, y :: b => (fst x =? fst y) && (snd x =? snd y) && same_to a b | _, _ => false end.
Lemma same_to_ok : forall a b, same_to a b = true -> a = b.
Proof.
  induction a as [|[x y] a IH]; intros [|[u v] b] H; try discriminate H; [reflexivity|]. cbn [same_to fst snd] in H. apply andb_prop in H. destruct H as [H1 H2].
  rewrite (IH b H2). do 2 f_equal; lia.
Qed.
Definition is_row (big : bool) (file : list Z) (pos : Z) (r : row) : bool :=
  let f := r_field r in
  is_placed file pos (field_entry big (r_place r) f) && (inline big f || is_placed file (r_place r) (field_data big f)) &&
  (0 <=? f_tag f) && (f_tag f <? 65536) && (1 <=? f_typ f) && (f_typ f <=? 13) &&
  (if is_pointer (f_tag f) then ((f_typ f =? 4) || (f_typ f =? 13)) && forallb (fun v => (0 <=? v) && (v <? 4294967296)) (f_vals f) && same_to (r_to r) (map (fun v => (0, v)) (f_vals f))
   else if f_tag f =? note_tag then match r_to r with [to] => is_note big file (if inline big f then pos + 8 else r_place r) to | _ => false end
   else match r_to r with [] => true | _ => false end).
Lemma is_row_ok : forall big file pos r, is_row big file pos r = true -> row_written big file pos r.
Proof.
  intros big file pos r H. unfold is_row in H. cbv zeta in H. apply andb_prop in H. destruct H as [H H7]. apply andb_prop in H. destruct H as [H H6]. apply andb_prop in H. destruct H as [H H5].
  apply andb_prop in H. destruct H as [H H4]. apply andb_prop in H. destruct H as [H H3]. apply andb_prop in H. destruct H as [H1 H2].
  split; [apply is_placed_ok; exact H1|]. split; [intros Q; rewrite Q in H2; apply is_placed_ok; exact H2|]. split; [lia|]. split; [lia|].
  destruct (is_pointer _).
  - apply andb_prop in H7. destruct H7 as [H7 H9]. apply andb_prop in H7. destruct H7 as [H7 H8]. split; [lia|]. split; [|apply same_to_ok; exact H9].
    apply Forall_forall. intros v Hv. pose proof (proj1 (forallb_forall _ _) H8 v Hv) as Q. cbv beta in Q. lia.
  - destruct (_ =? note_tag).
    + destruct (r_to r) as [|to [|? ?]]; try discriminate H7. exists to. split; [apply is_note_ok; exact H7|reflexivity].
    + destruct (r_to r); [reflexivity|discriminate H7].
Qed.
Fixpoint are_rows (big : bool) (file : list Z) (pos : Z) (rs : list row) : bool := match rs with [] => true | r :: t => is_row big file pos r && are_rows big file (pos + 12) t end.
Lemma are_rows_ok : forall big file rs pos, are_rows big file pos rs = true -> rows_written big file pos rs.
Proof. intros big file rs. induction rs as [|r rs IH]; intros pos H; [exact I|]. cbn [are_rows] in H. apply andb_prop in H. destruct H as [H1 H2]. split; [apply is_row_ok; exact H1|apply IH; exact H2]. Qed.

(** A tree with the places of its values *)
Inductive plan := Plan (next : Z) (rows : list row) (subs : list plan).
Fixpoint tree_of (p : plan) : tree := let 'Plan _ rs subs := p in Tree (map r_field rs) (map tree_of subs).
Definition next_of (p : plan) : Z := let 'Plan n _ _ := p in n.
Fixpoint is_written (levels : nat) (big : bool) (file : list Z) (pos : Z) (p : plan) : bool :=
  let 'Plan next rs subs := p in
  Nat.leb (length rs) 4000 && distinct (map f_tag (map r_field rs)) && is_placed file pos (bytes_of big 2 (Z.of_nat (length rs))) && are_rows big file (pos + 2) rs &&
  is_placed file (pos + 2 + 12 * Z.of_nat (length rs)) (bytes_of big 4 next) && (0 <=? next) && (next <? 4294967296) &&
  match levels with
  | O => match flat_map r_to rs, subs with [], [] => true | _, _ => false end
  | S n => (fix go (tos : list (Z * Z)) (ss : list plan) : bool :=
      match tos, ss with
      | [], [] => true
      | to :: tos, s :: ss => (0 <=? fst to) && (fst to <=? Z.of_nat (length file)) && is_written n big (skipn (Z.to_nat (fst to)) file) (snd to) s && go tos ss
      | _, _ => false
      end) (flat_map r_to rs) subs
  end.
Lemma is_written_ok : forall levels big file pos p, is_written levels big file pos p = true -> written levels big file pos (next_of p) (tree_of p).
Proof.
  induction levels as [|n IH]; intros big file pos [nx rs subs] H; cbn [is_written] in H; apply andb_prop in H; destruct H as [H H8]; apply andb_prop in H; destruct H as [H H7]; apply andb_prop in H; destruct H as [H H6];
    apply andb_prop in H; destruct H as [H H5]; apply andb_prop in H; destruct H as [H H4]; apply andb_prop in H; destruct H as [H H3]; apply andb_prop in H; destruct H as [H1 H2]; cbn [tree_of written next_of]; exists rs;
    (split; [reflexivity|split; [apply Nat.leb_le in H1; lia|split; [apply distinct_ok; exact H2|split; [apply is_placed_ok; exact H3|split; [apply are_rows_ok; exact H4|split; [apply is_placed_ok; exact H5|split; [lia|]]]]]]]).
  - destruct (flat_map r_to rs), subs; try discriminate H8. auto.
  - revert subs H8. generalize (flat_map r_to rs). induction l as [|to tos IHt]; intros [|s ss] H8; try discriminate H8; [constructor|].
    apply andb_prop in H8. destruct H8 as [H8 H9]. apply andb_prop in H8. destruct H8 as [H8 H10]. cbn [map]. constructor; [|apply IHt; exact H9]. exists (next_of s). split; [lia|apply IH; exact H10].
Qed.
Fixpoint is_chained (big : bool) (file : list Z) (pos : Z) (ps : list plan) : bool :=
  match ps with
  | [] => false
  | p :: rest => is_written 10 big file pos p && match rest with [] => next_of p =? 0 | _ => negb (next_of p =? 0) && is_chained big file (next_of p) rest end
  end.
Lemma is_chained_ok : forall big file ps pos, is_chained big file pos ps = true -> chained big file pos (map tree_of ps).
Proof.
  intros big file ps. induction ps as [|p ps IH]; intros pos H; [discriminate H|]. cbn [is_chained] in H. apply andb_prop in H. destruct H as [H1 H2]. apply is_written_ok in H1.
  destruct ps as [|q ps]; [replace (next_of p) with 0 in H1 by lia; exact H1|]. apply andb_prop in H2. destruct H2 as [H2 H3]. exists (next_of p). split; [lia|]. split; [exact H1|apply IH; exact H3].
Qed.
Definition is_head_from (start : Z) (big : bool) (head : list Z) (ps : list plan) : bool :=
  is_placed head 0 (order_mark big ++ bytes_of big 2 42 ++ bytes_of big 4 start) && (0 <=? start) && (start <? 2 ^ 32) && negb (nth 6 head 72 =? 72) &&
  is_chained big head start ps && Nat.leb (length ps) 100 && (Z.of_nat (length head) <? 65536) && forallb (fun b => (0 <=? b) && (b <? 256)) head.
Lemma is_head_from_ok : forall start big head ps data, is_head_from start big head ps = true -> Z.of_nat (length data) < 65536 -> bytes data -> tree_file big (map tree_of ps) (head ++ data).
Proof.
  intros start big head ps data H Hd Hb. unfold is_head_from in H. repeat rewrite andb_true_iff in H. destruct H as (((((((H1 & Ha) & Hc) & Hk) & H2) & H3) & H4) & H5).
  split.
  - exists start. split; [apply placed_app, is_placed_ok; exact H1|]. split; [lia|]. apply chained_app, is_chained_ok. exact H2.
  - intros (b & a & E & L). assert (length b = 6%nat) as Lb by lia. assert (nth 6 (head ++ data) 72 = 72) as N by (rewrite E, <- Lb, app_nth2, Nat.sub_diag by lia; reflexivity).
    destruct (Nat.lt_ge_cases 6 (length head)) as [G|G]; [rewrite app_nth1 in N by exact G; rewrite N in Hk; discriminate Hk|]. rewrite (nth_overflow head) in Hk by exact G. discriminate Hk.
  - rewrite map_length. apply Nat.leb_le. exact H3.
  - rewrite app_length. lia.
  - apply Forall_app. split; [apply bytes_check; exact H5|exact Hb].
Qed.
Definition is_head : bool -> list Z -> list plan -> bool := is_head_from 8.
Lemma is_head_ok : forall big head ps data, is_head big head ps = true -> Z.of_nat (length data) < 65536 -> bytes data -> tree_file big (map tree_of ps) (head ++ data).
Proof. exact (is_head_from_ok 8). Qed.

(** ** Laying out a file: the first directory, one for the picture, one that holds
    the maker's note, and after it the data. *)
Fixpoint rows_at (big : bool) (place : Z) (to : Z * Z) (fs : list field) : list row :=
  match fs with
  | [] => []
  | f :: t => mkrow f (if inline big f then 0 else place) (if is_pointer (f_tag f) then map (fun v => (0, v)) (f_vals f) else if f_tag f =? note_tag then [to] else []) ::
      rows_at big (if inline big f then place else place + Z.of_nat (length (field_data big f))) to t
  end.
Definition dir_rows (big : bool) (pos : Z) (to : Z * Z) (fs : list field) : list row := rows_at big (pos + 6 + 12 * Z.of_nat (length fs)) to fs.
Definition dir_bytes (big : bool) (pos next : Z) (fs : list field) : list Z :=
  bytes_of big 2 (Z.of_nat (length fs)) ++ flat_map (fun r => field_entry big (r_place r) (r_field r)) (dir_rows big pos (0, 0) fs) ++ bytes_of big 4 next ++ outside_data big fs.
(** The heading of the note, and from where its places count: the file's start or
    [fst] after the note's *)
Inductive maker := AsNikon | AsPentax | AsAoc | AsOlympus | AsOlymp | AsPlain.
Definition heading (big : bool) (m : maker) : list Z :=
  match m with
  | AsNikon => codes_of "Nikon" ++ [0; 2; 16; 0; 0] ++ order_mark big ++ bytes_of big 2 42 ++ bytes_of big 4 8
  | AsPentax => codes_of "PENTAX" ++ [32; 0] ++ order_mark big
  | AsAoc => codes_of "AOC" ++ [0] ++ order_mark big
  | AsOlympus => codes_of "OLYMPUS" ++ [0; 73; 73; 3; 0]
  | AsOlymp => codes_of "OLYMP" ++ [0; 1; 0]
  | AsPlain => []
  end.
Definition note_to (m : maker) (pos : Z) : Z * Z :=
  match m with AsNikon => (pos + 10, 8) | AsPentax => (pos, 10) | AsAoc => (0, pos + 6) | AsOlympus => (0, pos + 12) | AsOlymp => (0, pos + 8) | AsPlain => (0, pos) end.
Definition lay_out (big : bool) (m : maker) (top : list field) (raw : Z -> list field) (meta : list field) : list Z * list plan :=
  let tops a b := top ++ [mkfield 0x014A 4 [a]; mkfield 0x8769 4 [b]] in
  let size fs := Z.of_nat (length (dir_bytes big 0 0 fs)) in
  let a := 8 + size (tops 0 0) in
  let b := a + size (raw 0) in
  let at_ := b + 18 in
  let to := note_to m at_ in
  let note := heading big m ++ dir_bytes big (snd to) 0 meta in
  let exif := [mkfield note_tag 7 note] in
  let raws := raw (b + size exif) in
  (order_mark big ++ bytes_of big 2 42 ++ bytes_of big 4 8 ++ dir_bytes big 8 0 (tops a b) ++ dir_bytes big a 0 raws ++ dir_bytes big b 0 exif,
   [Plan 0 (dir_rows big 8 to (tops a b)) [Plan 0 (dir_rows big a to raws) []; Plan 0 (dir_rows big b to exif) [Plan 0 (dir_rows big (snd to) to meta) []]]]).

(** ** Photographs *)
Lemma from_app : forall head data at_, Z.of_nat (length head) = at_ -> from (head ++ data) at_ data.
Proof. intros head data at_ <-. split; [rewrite app_length; lia|]. rewrite Nat2Z.id, skipn_app, skipn_all, Nat.sub_diag. reflexivity. Qed.
Lemma nested_check : forall l mode big ts make model head ps data cam, map tree_of ps = ts -> is_head big head ps = true -> Z.of_nat (length data) < 65536 -> bytes data ->
  In (text_field T_Make make) (visible ts) -> prints make = true -> In (text_field T_Model model) (visible ts) -> prints model = true ->
  has_no (visible ts) T_DNGVersion -> model <> "DCS560C"%string -> has_no (visible ts) T_Orientation ->
  find_camera l make model mode = Some cam -> no_black_area cam -> nested_photo l mode big ts make model (head ++ data) Unknown cam.
Proof.
  intros l mode big ts make model head ps data cam <- H1 H2 H3 H4 H5 H6 H7 H8 H9 H10 H11 H12. split; try assumption.
  - apply is_head_ok; assumption.
  - split; try assumption; apply prints_ok; assumption.
  - right. auto.
Qed.
Lemma nested_turned : forall v l mode big ts make model head ps data cam, map tree_of ps = ts -> is_head big head ps = true -> Z.of_nat (length data) < 65536 -> bytes data ->
  In (text_field T_Make make) (visible ts) -> prints make = true -> In (text_field T_Model model) (visible ts) -> prints model = true ->
  has_no (visible ts) T_DNGVersion -> model <> "DCS560C"%string -> has_number (visible ts) T_Orientation v ->
  find_camera l make model mode = Some cam -> no_black_area cam -> nested_photo l mode big ts make model (head ++ data) (from_u16 (v mod 2 ^ 16)) cam.
Proof.
  intros v l mode big ts make model head ps data cam <- H1 H2 H3 H4 H5 H6 H7 H8 H9 H10 H11 H12. split; try assumption.
  - apply is_head_ok; assumption.
  - split; try assumption; apply prints_ok; assumption.
  - left. exists v. auto.
Qed.
Lemma picture_check : forall ts head which width height start raw w h data at_, Z.of_nat (length head) = at_ -> directory_with ts which raw -> has_number (visible [raw]) width w -> has_number (visible [raw]) height h ->
  has_number (visible [raw]) start at_ -> picture_at ts (head ++ data) which width height start raw w h data.
Proof. intros. split; try assumption. exists at_. split; [assumption|apply from_app; assumption]. Qed.
Ltac nested ps := eapply (nested_check _ _ _ _ _ _ _ ps); [vm_compute; reflexivity|vm_compute; reflexivity|vm_compute; reflexivity|apply bytes_check; vm_compute; reflexivity|member|vm_compute; reflexivity|member|vm_compute; reflexivity|absent|discriminate|absent|assumption|assumption].
Ltac nested_with v ps := eapply (nested_turned v _ _ _ _ _ _ _ ps); [vm_compute; reflexivity|vm_compute; reflexivity|vm_compute; reflexivity|apply bytes_check; vm_compute; reflexivity|member|vm_compute; reflexivity|member|vm_compute; reflexivity|absent|discriminate|number|assumption|assumption].
Ltac in_place := eapply picture_check; [vm_compute; reflexivity|vm_compute; reflexivity|number|number|number].
