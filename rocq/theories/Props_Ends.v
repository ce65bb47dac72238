(** C26 and C27: opening a file never crashes the program, and ends. *)
From Coq Require Import String ZArith List Bool.
From Verif Require Import Base F32 Camera CameraData Clients Image Dec_Header Dispatch Spec_Bits Spec_Dispatch Spec_Ends P_CameraData Props_Camera P_Ends6.
Import ListNotations.
Local Open Scope Z_scope.

(** C26: with the shipped cameras, for every file, no panic escapes, in either
    build mode. *)
Theorem C26_no_panic : forall (M : Mode) powf parse_f32 file, lib_decode powf parse_f32 shipped file <> Panic.
Proof. exact (fun M powf parse_f32 file => lib_decode_no_panic powf parse_f32 shipped file C30_loads). Qed.
Print Assumptions C26_no_panic.
(** The caller gets an image or an error, unless the file is a trap (C27). *)
Theorem C26_answer : forall (M : Mode) powf parse_f32 file, bytes file ->
  (exists img, lib_decode powf parse_f32 shipped file = Ok img) \/
  (exists m, lib_decode powf parse_f32 shipped file = Err m) \/
  (debug = false /\ minolta_trap file).
Proof. exact (fun M powf parse_f32 file B => lib_decode_answer powf parse_f32 shipped file B C30_loads). Qed.
Print Assumptions C26_answer.
(** So it is for every database that can be loaded. *)
Theorem C26_any_database : forall (M : Mode) powf parse_f32 db file, (exists l, loader_new db = Ok l) ->
  lib_decode powf parse_f32 db file <> Panic.
Proof. exact @lib_decode_no_panic. Qed.
Print Assumptions C26_any_database.
(** There are files that make the decoder panic; the caller sees an error. *)
Theorem C26_caught : exists file, bytes file /\ forall (M : Mode) powf parse_f32 l,
  decode powf parse_f32 l file = Panic /\ decode_safe powf parse_f32 l file = Err "Caught a panic while decoding."%string.
Proof. exact caught. Qed.
Print Assumptions C26_caught.

(** C27: decoding, the recognition of the format included, ends for every file,
    with every set of cameras, in the build that checks overflows ... *)
Theorem C27_debug : forall powf parse_f32 l file, bytes file -> decode (M := true) powf parse_f32 l file <> Loop.
Proof. intros powf parse_f32 l file B H. destruct (decode_loop (M := true) powf parse_f32 l file B H) as [E _]. discriminate E. Qed.
Print Assumptions C27_debug.
(** ... and in the one that wraps around for every file that is not a trap. *)
Theorem C27_ends : forall (M : Mode) powf parse_f32 l file, bytes file -> ~ minolta_trap file ->
  decode powf parse_f32 l file <> Loop.
Proof. intros M powf parse_f32 l file B N H. destruct (decode_loop powf parse_f32 l file B H) as [_ E]. exact (N E). Qed.
Print Assumptions C27_ends.
(** Files with no Minolta signature are none. *)
Theorem C27_other_formats : forall (M : Mode) powf parse_f32 l file, bytes file -> ~ signed file Minolta ->
  decode powf parse_f32 l file <> Loop.
Proof. intros M powf parse_f32 l file B N. apply C27_ends; [exact B|]. intros [[T _] _]. exact (N T). Qed.
Print Assumptions C27_other_formats.
Example C27_text : forall (M : Mode) powf parse_f32 l, decode powf parse_f32 l (codes "II*") <> Loop.
Proof.
  intros M powf parse_f32 l. apply C27_other_formats.
  - repeat (constructor; [cbv; split; congruence|]). constructor.
  - intros [b [a [E H]]]. destruct b; [discriminate E|discriminate H].
Qed.
(** C27 does not hold of the traps, in the build that wraps around: the header of
    this one is read for ever, whatever the number of turns. *)
Theorem C27_mrw_refuted : exists file, bytes file /\ minolta_trap file /\
  (forall powf parse_f32 l, decode (M := false) powf parse_f32 l file = Loop) /\
  (forall turns m, mrw_scan (M := false) turns (buffer_new file) 108 8 m = Loop).
Proof. exact (ex_intro _ trap (conj trap_bytes (conj trap_is (conj trap_decode trap_scan)))). Qed.
Print Assumptions C27_mrw_refuted.
