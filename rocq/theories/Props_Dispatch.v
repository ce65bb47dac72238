(** C28: which format a file has. *)
From Coq Require Import String ZArith List Bool Lia.
From Verif Require Import Base Tiff Ciff Camera Clients Decoder Dec_Header Dispatch Spec_Bits Spec_Dispatch P_Dispatch.
Import ListNotations.
Local Open Scope Z_scope.

(** Every file, also the empty one, is of exactly one container, ... *)
Theorem C28_total : forall file, bytes file -> exists! c, container_of file c.
Proof. exact container_exactly. Qed.
Print Assumptions C28_total.
(** ... which only the first 14 bytes decide, ... *)
Theorem C28_signature_only : forall f1 f2 c, firstn 14 f1 = firstn 14 f2 -> container_of f1 c -> container_of f2 c.
Proof. exact container_prefix. Qed.
Print Assumptions C28_signature_only.
(** ... and the decoder is chosen by it: the four signatures are tried in order,
    none of the tests fails, and only then the file is read any further. *)
Theorem C28_order : forall (M : Mode) l file c, bytes file -> container_of file c ->
  get_decoder l (buffer_new file) (zlen file) =
  match c with
  | Minolta => d <- mrw_new (buffer_new file) ;; Ok (DMrw d)
  | CanonCiff => d <- cifd_new_file (buffer_new file) (zlen file) ;; Ok (DCrw d)
  | Arri => Ok DAri
  | Sigma => d <- x3f_new (buffer_new file) (zlen file) ;; Ok (DX3f d)
  | NoSignature =>
      match ifd_new_file (buffer_new file) with
      | Ok tiff => by_tiff l (zlen file) tiff
      | Err _ => by_size l (zlen file)
      | Panic => Panic
      | Loop => Loop
      end
  end.
Proof. exact @get_decoder_by. Qed.
Print Assumptions C28_order.
Theorem C28_container : forall (M : Mode) l file d, bytes file ->
  get_decoder l (buffer_new file) (zlen file) = Ok d -> container_of file (container_read d).
Proof. exact @container_theorem. Qed.
Print Assumptions C28_container.
(** Files with a signature, with two signatures, and with neither. *)
Example C28_arri : container_of (codes "ARRIxxxx") Arri /\ get_decoder (M := true) [] (buffer_new (codes "ARRIxxxx")) 8 = Ok DAri.
Proof.
  split; [|reflexivity]. apply (C28_container true [] (codes "ARRIxxxx") DAri); [|reflexivity].
  repeat (constructor; [cbv; split; congruence|]). constructor.
Qed.
Example C28_two : container_of (codes "ARRIxxHEAPCCDR") CanonCiff.
Proof.
  split; [exists (codes "ARRIxx"), []; split; reflexivity|].
  intros [| | | |] L; cbn in L; try lia. intros [b [a [E H]]]. destruct b; [discriminate|discriminate H].
Qed.
Example C28_none : container_of (codes "hello, world") NoSignature.
Proof.
  split; [exact I|]. intros [| | | |] L; cbn in L; try lia; cbn [signed]; intros H.
  2: { apply stands_len in H. cbn in H. lia. }
  all: destruct H as [b [a [E H]]]; destruct b; [discriminate|discriminate H].
Qed.

(** A file without a signature is of a TIFF format exactly if it parses as TIFF
    and its tags say so, and is a headerless file exactly if they do not and the
    database has a camera with files of that size. *)
Theorem C28_tiff : forall (M : Mode) l file f t, bytes file ->
  get_decoder l (buffer_new file) (zlen file) = Ok (DTiff f t) <->
  container_of file NoSignature /\ ifd_new_file (buffer_new file) = Ok t /\ tiff_format t f.
Proof. exact @tiff_theorem. Qed.
Print Assumptions C28_tiff.
Theorem C28_headerless : forall (M : Mode) l file cam, bytes file ->
  get_decoder l (buffer_new file) (zlen file) = Ok (DNaked cam) <->
  container_of file NoSignature /\ find_naked l (zlen file) = Some cam /\
  match ifd_new_file (buffer_new file) with Ok t => anonymous t | Err _ => True | _ => False end.
Proof. exact @naked_theorem. Qed.
Print Assumptions C28_headerless.
(** A file with neither a signature nor the start of a TIFF file, like every file
    of less than two bytes, is an error (or headerless), never a panic. *)
Theorem C28_unknown : forall (M : Mode) l file, bytes file -> container_of file NoSignature -> ~ tiff_like file ->
  match find_naked l (zlen file) with
  | Some cam => get_decoder l (buffer_new file) (zlen file) = Ok (DNaked cam)
  | None => exists m, get_decoder l (buffer_new file) (zlen file) = Err m
  end.
Proof. exact @unknown_theorem. Qed.
Print Assumptions C28_unknown.
Theorem C28_tiny : forall file, (length file < 2)%nat -> container_of file NoSignature /\ ~ tiff_like file.
Proof. exact tiny_theorem. Qed.
Print Assumptions C28_tiny.
Example C28_empty : exists m, get_decoder (M := false) [] (buffer_new []) 0 = Err m.
Proof.
  destruct (C28_tiny [] ltac:(cbn; lia)) as [C N]. exact (C28_unknown false [] [] (Forall_nil _) C N).
Qed.
(** A little TIFF file: one directory with only the tag Make, "SONY". *)
Example C28_sony : let file := codes "II*" ++ [0; 8; 0; 0; 0; 1; 0; 15; 1; 2; 0; 5; 0; 0; 0; 26; 0; 0; 0; 0; 0; 0; 0] ++ codes "SONY" in
  match get_decoder (M := true) [] (buffer_new file) (zlen file) with Ok (DTiff f _) => f = ARW | _ => False end.
Proof. vm_compute. reflexivity. Qed.
(** But a file cut short after Fuji's signature makes the recognition panic (the
    panic is caught by the caller: C26). *)
Theorem C28_fuji_refuted : exists file, bytes file /\ container_of file NoSignature /\
  forall (M : Mode) l, get_decoder l (buffer_new file) (zlen file) = Panic.
Proof. exact fuji_short. Qed.
Print Assumptions C28_fuji_refuted.
