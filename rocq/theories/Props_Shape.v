(** C45: a decoded image has as many samples as its size says. *)
From Coq Require Import String ZArith List Bool Lia.
From Verif Require Import Base Num F32 Camera Clients Image Dispatch Spec_Bits Spec_Camera Spec_Shape P_Shape4 P_Shape5 P_Shape7.
Import ListNotations.
Local Open Scope Z_scope.

(** C45: the image has [width * height * cpp] samples, and each has 16 bits,
    whatever the file, unless it is a Canon CR2. *)
Theorem C45_size : forall (M : Mode) powf parse_f32 db file img, bytes file -> file <> [] -> is_toml db ->
  lib_decode powf parse_f32 db file = Ok img ->
  exists l d, loader_new db = Ok l /\ get_decoder l (buffer_new file) (zlen file) = Ok d /\
    ((forall t, d <> DTiff CR2 t) -> whole img).
Proof. exact @others_whole. Qed.
Print Assumptions C45_size.
(** A Canon CR2 that is like those of the cameras.  What is missing is
    false: pictures of double lines with an odd number of samples, pictures of
    three components without stripes whose directory gives another size than
    their lossless JPEG, and those without a size whose lines are not whole
    pixels (see the refutations below). *)
Theorem C45_cr2_partial : forall (M : Mode) powf parse_f32 db file img, bytes file -> file <> [] -> is_toml db ->
  lib_decode powf parse_f32 db file = Ok img ->
  exists l d, loader_new db = Ok l /\ get_decoder l (buffer_new file) (zlen file) = Ok d /\
    ((forall t, d = DTiff CR2 t -> ordinary l (buffer_new file) t img) -> whole img).
Proof. exact @decode_whole. Qed.
Print Assumptions C45_cr2_partial.
(** There is a Canon CR2 that decodes to an image of 1 x 2 pixels of one
    component with three samples. *)
Theorem C45_odd_refuted : forall (M : Mode) powf parse_f32, exists db file img, bytes file /\ file <> [] /\ is_toml db /\
  lib_decode powf parse_f32 db file = Ok img /\ i_width img = 1 /\ i_height img = 2 /\ i_cpp img = 1 /\ length (i_data img) = 3%nat.
Proof. exact odd_image. Qed.
Print Assumptions C45_odd_refuted.
(** There is a Canon CR2 of 2 x 1 pixels whose directory says 5 x 7: the image
    says so too, and has six samples. *)
Theorem C45_size_tags_refuted : forall (M : Mode) powf parse_f32, exists db file img, bytes file /\ file <> [] /\ is_toml db /\
  lib_decode powf parse_f32 db file = Ok img /\ i_width img = 5 /\ i_height img = 7 /\ i_cpp img = 3 /\ length (i_data img) = 6%nat.
Proof. exact sized_image. Qed.
Print Assumptions C45_size_tags_refuted.
(** There is one that decodes to an image without rows that has six samples. *)
Theorem C45_no_rows_refuted : forall (M : Mode) powf parse_f32, exists db file img, bytes file /\ file <> [] /\ is_toml db /\
  lib_decode powf parse_f32 db file = Ok img /\ i_width img = 3 /\ i_height img = 0 /\ i_cpp img = 3 /\ length (i_data img) = 6%nat.
Proof. exact tall_image. Qed.
Print Assumptions C45_no_rows_refuted.

(** A headerless file of 8 x 1 pixels *)
Example C45_small : let M : Mode := true in forall powf parse_f32,
  let db := [[("make", VStr "M"); ("model", VStr "A"); ("whitepoint", VInt 4095); ("raw_width", VInt 8); ("raw_height", VInt 1); ("filesize", VInt 12)]]%string in
  let file := [1; 2; 3; 4; 5; 6; 7; 8; 9; 10; 11; 12] in
  bytes file /\ is_toml db /\
  match lib_decode powf parse_f32 db file with
  | Ok img => (i_width img, i_height img, i_cpp img, i_data img) = (8, 1, 1, [32; 260; 48; 1541; 128; 1802; 144; 3083])
  | _ => False
  end /\
  match (l <- loader_new db ;; get_decoder l (buffer_new file) (zlen file)) with Ok (DNaked _) => True | _ => False end.
Proof.
  intros M powf parse_f32 db file. split; [repeat (constructor; [unfold byte; lia|]); constructor|]. split; [|split; lazy; [reflexivity|exact I]].
  intros ct m [<-|[]] [<-|[]]. unfold unique_keys. cbn. repeat (constructor; [cbn; intuition discriminate|]). constructor.
Qed.
(** A Canon file with a line of three samples that are not two lines *)
Example C45_canon : forall (M : Mode) powf parse_f32, exists db file img l t, lib_decode powf parse_f32 db file = Ok img /\
  loader_new db = Ok l /\ get_decoder l (buffer_new file) (zlen file) = Ok (DTiff CR2 t) /\ ordinary l (buffer_new file) t img /\
  i_width img = 3 /\ i_height img = 1 /\ i_cpp img = 1 /\ length (i_data img) = 3%nat.
Proof. exact single_image. Qed.
(** A Canon file of 2 x 1 pixels of three components *)
Example C45_canon_colour : forall (M : Mode) powf parse_f32, exists db file img l t, lib_decode powf parse_f32 db file = Ok img /\
  loader_new db = Ok l /\ get_decoder l (buffer_new file) (zlen file) = Ok (DTiff CR2 t) /\ ordinary l (buffer_new file) t img /\
  i_width img = 2 /\ i_height img = 1 /\ i_cpp img = 3 /\ length (i_data img) = 6%nat.
Proof. exact agreed_image. Qed.
