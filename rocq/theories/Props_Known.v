(** C46: only known cameras decode. *)
From Coq Require Import String ZArith List Bool Lia.
From Verif Require Import Base Num F32 Camera Clients Image Dispatch Spec_Bits Spec_Camera Spec_Dispatch Spec_Known P_Known.
Import ListNotations.
Local Open Scope Z_scope.

(** C46: an image comes out of a file that is no DNG only if the database
    declares a camera with the make, the model and the mode of the file (with
    its size, if the file is headerless).  The image repeats what the last such
    declaration says. *)
Theorem C46_known : forall (M : Mode) powf parse_f32 db file img, bytes file -> file <> [] -> is_toml db ->
  lib_decode powf parse_f32 db file = Ok img ->
  exists l d, loader_new db = Ok l /\ get_decoder l (buffer_new file) (zlen file) = Ok d /\
    ((forall t, d <> DTiff DNG t) ->
     exists decl cam, declared db file img d decl /\ describes decl cam /\
       reports img cam /\ reports_blacks d img cam /\ reports_crops img cam /\ reports_orientation d img cam).
Proof. exact @lib_known. Qed.
Print Assumptions C46_known.
(** So it is for every set of cameras, however it came about. *)
Theorem C46_cameras : forall (M : Mode) powf parse_f32 l file img, decode powf parse_f32 l file = Ok img ->
  exists d, get_decoder l (buffer_new file) (zlen file) = Ok d /\
    ((forall t, d <> DTiff DNG t) ->
     exists cam, taken_by l (buffer_new file) img d cam /\
       reports img cam /\ reports_blacks d img cam /\ reports_crops img cam /\ reports_orientation d img cam).
Proof. exact @decode_known. Qed.
Print Assumptions C46_cameras.
(** A DNG from an unknown camera decodes; it has the names that are in the file. *)
Theorem C46_dng : forall (M : Mode) powf parse_f32 l file t img, get_decoder l (buffer_new file) (zlen file) = Ok (DTiff DNG t) ->
  decode powf parse_f32 l file = Ok img -> exists make model, dng_reports l t img make model.
Proof. exact @decode_dng. Qed.
Print Assumptions C46_dng.

(** A database with a camera whose files have twelve bytes and the picture in
    such a file; with another size the same file is unknown. *)
Definition small (n : Z) : list table :=
  [[("make", VStr "M"); ("model", VStr "A"); ("clean_make", VStr "m"); ("clean_model", VStr "a"); ("whitepoint", VInt 4095);
    ("blackpoint", VInt 7); ("raw_width", VInt 8); ("raw_height", VInt 1); ("filesize", VInt n)]]%string.
Example C46_small : let M : Mode := true in forall powf parse_f32, bytes [1; 2; 3; 4; 5; 6; 7; 8; 9; 10; 11; 12] /\ is_toml (small 12) /\
  match lib_decode powf parse_f32 (small 12) [1; 2; 3; 4; 5; 6; 7; 8; 9; 10; 11; 12] with
  | Ok img => (i_clean_model img, e0 (i_whites img), e0 (i_blacks img), i_data img) =
              ("a"%string, 4095, 7, [32; 260; 48; 1541; 128; 1802; 144; 3083])
  | _ => False
  end /\
  match lib_decode powf parse_f32 (small 13) [1; 2; 3; 4; 5; 6; 7; 8; 9; 10; 11; 12] with Err _ => True | _ => False end.
Proof.
  intros M powf parse_f32. split; [repeat (constructor; [unfold byte; lia|]); constructor|]. split; [|split; lazy; [reflexivity|exact I]].
  intros ct m [<-|[]] [<-|[]]. unfold unique_keys. cbn. repeat (constructor; [cbn; intuition discriminate|]). constructor.
Qed.
