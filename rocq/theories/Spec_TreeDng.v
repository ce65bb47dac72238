(** DNG files whose picture is described in one of several directories (C60). *)
From Coq Require Import String ZArith List Bool.
From Verif Require Import Base Num F32 Cfa Tiff Transform Image Camera Spec_Bits Spec_Cfa Spec_Tiff Spec_Meta Spec_File Spec_Dng Spec_Tree.
Import ListNotations.
Local Open Scope Z_scope.

(** The number in the first field of a tag *)
Definition number_in (fs : list field) (tag : Z) : option Z :=
  match find (fun f => f_tag f =? tag) fs with Some f => match f_vals f with v :: _ => Some v | [] => None end | None => None end.
(** A directory of a picture that is not a preview: it has the tag Compression with
    a value for a kind of raw data, and its NewSubFileType, if there is one, is even. *)
Definition shows_picture (t : tree) : bool :=
  has_value T_Compression t &&
  match number_in (visible [t]) T_Compression with Some c => (c =? 1) || (c =? 7) || (c =? 34892) | None => false end &&
  match number_in (visible [t]) T_NewSubFileType with Some v => Z.even v | None => true end.
(** The two tags have proper values, wherever they are. *)
Definition marked (t : tree) : Prop :=
  has_value T_Compression t = true ->
  (exists c, has_number (visible [t]) T_Compression c) /\
  (has_no (visible [t]) T_NewSubFileType \/ exists v, has_number (visible [t]) T_NewSubFileType v).

(** The picture is in the first such directory, [raw].  Its fields say how it is
    stored; the names, orientation, white balance and matrix can be in any directory. *)
Record dng_tree (big : bool) (ts : list tree) (raw : tree) (make model : string) (file : list Z) (w h cpp compression : Z) (o : orientation) (m : dng_meta) : Prop := {
  dt_file : tree_file big ts file;
  dt_names : names (visible ts) make model;
  dt_version : In T_DNGVersion (map f_tag (visible ts));
  dt_marked : Forall marked (flat_map all_trees ts);
  dt_raw : find shows_picture (flat_map all_trees ts) = Some raw;
  dt_orientation : has_orientation (visible ts) o;
  dt_neutral : match m_neutral m with
               | None => has_no (visible ts) T_AsShotNeutral
               | Some q => has_fractions big (visible ts) T_AsShotNeutral (list3 q) /\ Forall moderate (list3 q)
               end;
  dt_matrix : let '(a, b, c) := m_matrix m in
              let qs := list3 a ++ list3 b ++ list3 c in
              has_signed_fractions big (visible ts) T_ColorMatrix2 qs \/ has_no (visible ts) T_ColorMatrix2 /\ has_signed_fractions big (visible ts) T_ColorMatrix1 qs;
  dt_width : has_number (visible [raw]) T_ImageWidth w;
  dt_height : has_number (visible [raw]) T_ImageLength h;
  dt_cpp : has_number (visible [raw]) T_SamplesPerPixel cpp;
  dt_compression : has_number (visible [raw]) T_Compression compression;
  dt_white : has_number (visible [raw]) T_WhiteLevel (m_white m) /\ m_white m < 2 ^ 16;
  dt_black : match m_black m with
             | None => has_no (visible [raw]) T_BlackLevels
             | Some l => has_numbers (visible [raw]) T_BlackLevels l /\ (length l = 1%nat \/ length l = 4%nat) /\ samples l
             end;
  dt_area : match m_area m with
            | None => has_no (visible [raw]) T_ActiveArea
            | Some (t, l, b, r) => has_numbers (visible [raw]) T_ActiveArea [t; l; b; r] /\ b <= h /\ r <= w
            end;
  dt_pattern : match m_pattern m with
               | None => has_number (visible [raw]) T_PhotometricInt 34892
               | Some vs => has_number (visible [raw]) T_PhotometricInt 32803 /\ In (mkfield T_CFAPattern 1 vs) (visible [raw]) /\ dims (length vs) <> None /\ Forall (fun v => 0 <= v <= 2) vs
               end
}.
