(** Model of the dithered tone curve of src/decoders/basics.rs. *)
From Coq Require Import ZArith List Bool.
From Verif Require Import Base.
Import ListNotations.
Local Open Scope Z_scope.

Section Lookup.
Context {M : Mode}.

(** basics.rs:10-17 [clampbits].  Both shifts are arithmetic shifts of an i32. *)
Definition clampbits (val bits : Z) : res Z :=
  b <- shamt 32 bits ;;
  let temp := Z.shiftr val b in
  if negb (temp =? 0) then
    s <- u32sub 32 bits ;;
    s' <- shamt 32 s ;;
    Ok (Z.shiftr (Z.lnot temp) s')
  else Ok val.

(** basics.rs:103-106: (center, base, delta) triples. *)
Definition ltable := list (Z * Z * Z).

(** basics.rs:112-117: the body of the loop for one index.  All values are u16. *)
Definition lookup_entry (table : list Z) (i : Z) : res (Z * Z * Z) :=
  center <- get table i ;;
  lower <- (if 0 <? i then get table (i - 1) else Ok center) ;;
  upper <- (if i <? zlen table - 1 then get table (i + 1) else Ok center) ;;
  base <- (if center =? 0 then Ok 0 else
             d <- u16sub upper lower ;;
             d2 <- u16add d 2 ;;
             u16sub center (d2 / 4)) ;;
  delta <- u16sub upper lower ;;
  Ok (center, base, delta).

(** basics.rs:109-122 [LookupTable::new] *)
Definition lookup_new (table : list Z) : res ltable :=
  mapM (lookup_entry table) (zrange 0 (zlen table)).

(** basics.rs:129-136 [dither]: the pixel and the next random state. *)
Definition dither (tbl : ltable) (value rand : Z) : res (Z * Z) :=
  '(_, base, delta) <- get tbl value ;;
  prod <- arith_u 32 (delta * Z.land rand 2047) ;;
  sum <- u32add prod 1024 ;;
  pixel <- u32add base (Z.shiftr sum 12) ;;
  m <- arith_u 32 (15700 * Z.land rand 65535) ;;
  rand' <- u32add m (Z.shiftr rand 16) ;;
  Ok (as_u16 pixel, rand').
End Lookup.
