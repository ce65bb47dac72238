(** Model of the line interlacing of src/decoders/mos.rs (Leaf MOS). *)
From Coq Require Import String ZArith List Bool.
From Verif Require Import Base Threads.
Import ListNotations.
Local Open Scope Z_scope.

(** [out[a..b].copy_from_slice(line)]: panics unless the lengths agree. *)
Definition copy_at (out : list Z) (a b : Z) (line : list Z) : res (list Z) :=
  _ <- slice out a b ;;
  if zlen line =? b - a
  then Ok (firstn (Z.to_nat a) out ++ line ++ skipn (Z.to_nat b) out)
  else Panic.

Section Mos.
Context {M : Mode}.

(** mos.rs:91-97, in [decode_compressed]: put the lines of an interlaced file in
    order.  [chunks(0)] panics. *)
Definition mos_interlace (ljpegout : list Z) (width height : Z) : res (list Z) :=
  let out := zeros (width * height) in
  if width =? 0 then Panic else
  rfold (fun '(row, line) out =>
    orow <- (if Z.land row 1 =? 1 then (a <- usub height 1 ;; usub a (row / 2)) else Ok (row / 2)) ;;
    copy_at out (orow * width) ((orow + 1) * width) line)
    (enumerate (chunks (Z.to_nat width) ljpegout)) out.
End Mos.
