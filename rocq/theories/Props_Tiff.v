(** C21-C25: TIFF and CIFF directories. *)
From Coq Require Import String ZArith List Bool Lia.
From Verif Require Import Base Bytes Tiff Ciff Spec_Bits Spec_Tiff P_Tiff1 P_Tiff2 P_Tiff3 P_Tiff4 P_Tiff5 P_Tiff6.
Import ListNotations.
Local Open Scope Z_scope.

(** C21: a lookup finds the tag in the first directory, outermost first and then
    in file order, that has it, and nothing when none has it. *)
Theorem C21_first_entry : forall i tag,
  match find_entry i tag with
  | Some e => exists above d below, directories i = above ++ d :: below /\ In (tag, e) (i_entries d) /\
      (forall a, In a above -> has_tag a tag = false)
  | None => forall d, part_of i d -> has_tag d tag = false
  end.
Proof. exact find_entry_spec. Qed.
Print Assumptions C21_first_entry.
Theorem C21_directories : forall i d, In d (directories i) <-> part_of i d.
Proof. exact directories_part. Qed.
Print Assumptions C21_directories.
Theorem C21_presence : forall i tag, has_entry i tag = true <-> exists d, part_of i d /\ has_tag d tag = true.
Proof. exact has_some. Qed.
Print Assumptions C21_presence.
Theorem C21_first_directory : forall i tag, find_first_ifd i tag = find (fun d => has_tag d tag) (directories i).
Proof. exact find_first_ifd_eq. Qed.
Print Assumptions C21_first_directory.
(** In a file, the entry found has the tag asked for. *)
Theorem C21_file : forall (M : Mode) file root tag en, bytes file -> ifd_new_file file = Ok root -> find_entry root tag = Some en ->
  e_tag en = tag /\ owns file en.
Proof. exact @find_parsed. Qed.
Print Assumptions C21_file.
Theorem C21_ciff : forall i tag,
  match cfind_entry i tag with
  | Some e => exists above d below, cdirectories i = above ++ d :: below /\ In (tag, e) (ci_entries d) /\
      (forall a, In a above -> chas_tag a tag = false)
  | None => forall d, cpart_of i d -> chas_tag d tag = false
  end.
Proof. exact cfind_entry_spec. Qed.
Print Assumptions C21_ciff.
Definition ex_e (t v : Z) : entry := mkentry t 1 1 0 0 [v] false.
Definition ex_tree : ifd :=
  mkifd [(256, ex_e 256 1)] [mkifd [(257, ex_e 257 2)] [mkifd [(258, ex_e 258 3)] [] 0 0 false] 0 0 false; mkifd [(258, ex_e 258 4); (257, ex_e 257 5)] [] 0 0 false] 0 0 false.
Example C21_ex : find_entry ex_tree 257 = Some (ex_e 257 2) /\ find_entry ex_tree 258 = Some (ex_e 258 3) /\ find_entry ex_tree 259 = None /\
  length (directories ex_tree) = 4%nat.
Proof. repeat split. Qed.

(** C22: the list of the directories with a tag has every one of them, the
    outermost first ... *)
Theorem C22_complete_partial : forall i tag d, In d (find_ifds_with_tag i tag) <-> part_of i d /\ has_tag d tag = true.
Proof. exact find_ifds_In. Qed.
Print Assumptions C22_complete_partial.
(** ... but only the root once: the others come twice in a row. *)
Theorem C22_list_partial : forall i tag, find_ifds_with_tag i tag =
  filter (fun d => has_tag d tag) [i] ++ flat_map (fun d => if has_tag d tag then [d; d] else []) (tl (directories i)).
Proof. exact find_ifds_eq. Qed.
Print Assumptions C22_list_partial.
Theorem C22_once_refuted : forall M : Mode, exists file root d, bytes file /\ ifd_new_file file = Ok root /\
  filter (fun x => has_tag x T_ImageWidth) (directories root) = [d] /\ find_ifds_with_tag root T_ImageWidth = [d; d].
Proof.
  intros M. exists (tiff_file true [mkfield T_ImageWidth 3 [7]]). eexists. eexists.
  split; [repeat constructor; discriminate|]. split; [vm_compute; reflexivity|]. split; reflexivity.
Qed.
Print Assumptions C22_once_refuted.

(** C23: parsing ends, for every file. *)
Theorem C23_ends : forall (M : Mode) file, ifd_new_file file <> Loop.
Proof. exact @ends_ifd_new_file. Qed.
Print Assumptions C23_ends.
Theorem C23_ciff_ends : forall (M : Mode) file size, cifd_new_file file size <> Loop.
Proof. exact @ends_cifd_new_file. Qed.
Print Assumptions C23_ciff_ends.
(** At most thirteen levels (twelve below a TIFF header, eleven below a
    directory's offset), no tag twice in a directory and so at most as many
    entries as there are known tags. *)
Theorem C23_shape : forall (M : Mode) file root, bytes file -> ifd_new_file file = Ok root ->
  (nesting root <= 13)%nat /\
  forall d, part_of root d -> (length (i_entries d) <= 85)%nat /\ NoDup (map fst (i_entries d)) /\
    Z.of_nat (length (i_subs d)) <= 4000 * Z.of_nat (length file).
Proof. exact @shape. Qed.
Print Assumptions C23_shape.
Theorem C23_chain : forall (M : Mode) file off root, bytes file -> ifd_new_root file off = Ok root ->
  (length (i_subs root) <= 100)%nat /\ (nesting root <= 12)%nat.
Proof. exact @root_shape. Qed.
Print Assumptions C23_chain.
Theorem C23_levels : forall (M : Mode) l file off base start e d, bytes file -> ifd_levels l file off base start e = Ok d ->
  (nesting d <= S l)%nat.
Proof. exact @dir_shape. Qed.
Print Assumptions C23_levels.
Theorem C23_entries : forall (M : Mode) l file off base start e n, ru16 e file off = Ok n -> 4000 < n ->
  ifd_levels l file off base start e = Err "too many entries in IFD"%string.
Proof. exact @too_many. Qed.
Print Assumptions C23_entries.
Theorem C23_ciff_shape : forall (M : Mode) file size root, bytes file -> cifd_new_file file size = Ok root ->
  (cnesting root <= 10)%nat /\
  forall d, cpart_of root d -> NoDup (map fst (ci_entries d)) /\ (Z.of_nat (length (ci_subs d)) + Z.of_nat (length (ci_entries d)) <= 65535).
Proof. exact @cshape. Qed.
Print Assumptions C23_ciff_shape.
(** But the limits leave room for files whose directories contain themselves:
    with [n] such references, in 26 + 4 n bytes, more than n^10 directories. *)
Theorem C23_total_refuted : forall (M : Mode) n, (2 <= n)%nat -> Z.of_nat n < 2 ^ 29 -> exists file root,
  Z.of_nat (length file) = 26 + 4 * Z.of_nat n /\ bytes file /\ ifd_new_file file = Ok root /\
  Z.of_nat n ^ 10 < Z.of_nat (length (directories root)).
Proof. exact @blowup. Qed.
Print Assumptions C23_total_refuted.

(** C24: a directory written in either byte order gives back the same tags,
    types, counts and values. *)
Theorem C24_round_trip : forall (M : Mode) big fs tail, Forall plain_field fs -> NoDup (map f_tag fs) ->
  Z.of_nat (length fs) <= 4000 -> Z.of_nat (length (tiff_file big fs ++ tail)) < 2 ^ 32 ->
  exists root, ifd_new_file (tiff_file big fs ++ tail) = Ok root /\
  (forall f, In f fs -> exists en, find_entry root (f_tag f) = Some en /\ e_typ en = f_typ f /\
     e_count en = Z.of_nat (length (f_vals f)) /\
     forall k v, nth_error (f_vals f) k = Some v -> get_u32 en (Z.of_nat k) = Ok v) /\
  (forall tag, ~ In tag (map f_tag fs) -> find_entry root tag = None).
Proof. exact @round_trip. Qed.
Print Assumptions C24_round_trip.
Definition ex_fields : list field := [mkfield T_ImageWidth 4 [70000]; mkfield T_BitsPerSample 3 [12; 14; 300]; mkfield T_CFAPattern 1 [0; 1; 1; 2]; mkfield T_StripOffsets 4 [65536; 5]].
Example C24_ex : forall M : Mode, Forall plain_field ex_fields /\ NoDup (map f_tag ex_fields) /\
  Z.of_nat (length (tiff_file false ex_fields)) = 76 /\
  exists big little, ifd_new_file (tiff_file true ex_fields) = Ok big /\ ifd_new_file (tiff_file false ex_fields) = Ok little /\
  option_map (fun e => get_u32 e 2) (find_entry big T_BitsPerSample) = Some (Ok 300) /\
  option_map (fun e => get_u32 e 2) (find_entry little T_BitsPerSample) = Some (Ok 300).
Proof.
  intros M. split; [|split; [|split; [reflexivity|]]].
  - unfold ex_fields. repeat (constructor; [split; [apply known_In; reflexivity|split; [vm_compute; intuition discriminate|split; [reflexivity|cbn [f_vals f_typ type_size]; repeat (constructor; [split; [discriminate|reflexivity]|]); constructor]]]|]). constructor.
  - cbn. repeat (constructor; [vm_compute; intuition discriminate|]). constructor.
  - eexists. eexists. split; [vm_compute; reflexivity|]. split; [vm_compute; reflexivity|]. split; reflexivity.
Qed.

(** C25: entries own exactly the bytes their type and count call for, and the
    values of those of an integer type can be read below the count. *)
Theorem C25_readable_partial : forall (M : Mode) file root d tag en idx, bytes file -> ifd_new_file file = Ok root ->
  part_of root d -> In (tag, en) (i_entries d) ->
  owns file en /\ (integer_type (e_typ en) = true -> 0 <= idx < e_count en -> exists v, get_u32 en idx = Ok v).
Proof. exact @values_readable. Qed.
Print Assumptions C25_readable_partial.
Theorem C25_ciff : forall (M : Mode) file size root d tag en idx, bytes file -> cifd_new_file file size = Ok root ->
  cpart_of root d -> In (tag, en) (ci_entries d) ->
  ce_tag en = tag /\ cowns file en /\ (cinteger_type (ce_typ en) = true -> 0 <= idx < ce_count en -> exists v, cget_u32 en idx = Ok v).
Proof. exact @cvalues_readable. Qed.
Print Assumptions C25_ciff.
(** The type UNDEFINED (7) has one byte per element, but is read four bytes at a
    time. *)
Definition ex_undefined : list Z := [73; 73; 42; 0; 8; 0; 0; 0; 1; 0; 0; 1; 7; 0; 4; 0; 0; 0; 1; 2; 3; 4; 0; 0; 0; 0].
Theorem C25_undefined_refuted : forall M : Mode, exists file root en, bytes file /\ ifd_new_file file = Ok root /\
  find_entry root T_ImageWidth = Some en /\ e_count en = 4 /\ get_u32 en 0 = Ok 0x04030201 /\ get_u32 en 1 = Panic.
Proof.
  intros M. exists ex_undefined. eexists. eexists. split; [repeat constructor; discriminate|].
  split; [vm_compute; reflexivity|]. split; [reflexivity|]. repeat split.
Qed.
Print Assumptions C25_undefined_refuted.
(** ASCII, SBYTE and the two-part and floating point types cannot be read as
    numbers at all. *)
Theorem C25_other_types_refuted : forall en idx, In (e_typ en) [2; 5; 6; 10; 11; 12] -> get_u32 en idx = Panic.
Proof. intros en idx H. unfold get_u32. cbn [In] in H. repeat (destruct H as [<-|H]; [reflexivity|]). destruct H. Qed.
Print Assumptions C25_other_types_refuted.
