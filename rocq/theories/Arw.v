(** Model of the data decoding of src/decoders/arw.rs (Sony ARW). *)
From Coq Require Import String ZArith List Bool.
From Verif Require Import Base Bytes Pumps Threads Lookup Tiff.
Import ListNotations.
Local Open Scope Z_scope.

(** [u32::leading_zeros] *)
Definition leading_zeros (v : Z) : Z := if v =? 0 then 32 else 31 - Z.log2 v.

(** ** sony_decrypt *)

(** [u32::from_be] on a little-endian machine (all that rustc's tier-1 targets
    are): the bytes of the word are reversed. *)
Definition swap32 (v : Z) : Z :=
  Z.lor (Z.lor (Z.shiftl (Z.land v 255) 24) (Z.shiftl (Z.land (Z.shiftr v 8) 255) 16))
        (Z.lor (Z.shiftl (Z.land (Z.shiftr v 16) 255) 8) (Z.land (Z.shiftr v 24) 255)).

(** [a << 1 | b >> 31] on u32 *)
Definition shift_in (a b : Z) : Z := Z.lor (as_u32 (Z.shiftl a 1)) (Z.shiftr b 31).

(** arw.rs:248-253: the first four words of the pad *)
Definition pad_start (key : Z) (pad : list Z) : res (Z * list Z) :=
  rfold (fun p '(mkey, pad) =>
    let mkey := as_u32 (as_u32 (mkey * 48828125) + 1) in
    pad <- upd pad p mkey ;; Ok (mkey, pad)) (zrange 0 4) (key, pad).

(** arw.rs:247-260: the pad of 128 words.  The last word stays 0. *)
Definition sony_pad (key : Z) : res (list Z) :=
  '(_, pad) <- pad_start key (zeros 128) ;;
  p3 <- get pad 3 ;; p0 <- get pad 0 ;; p2 <- get pad 2 ;;
  pad <- upd pad 3 (shift_in p3 (Z.lxor p0 p2)) ;;
  pad <- rfold (fun p pad =>
           a <- get pad (p - 4) ;; b <- get pad (p - 2) ;;
           c <- get pad (p - 3) ;; d <- get pad (p - 1) ;;
           upd pad p (shift_in (Z.lxor a b) (Z.lxor c d))) (zrange 4 127) pad ;;
  rfold (fun p pad => v <- get pad p ;; upd pad p (swap32 v)) (zrange 0 127) pad.

(** arw.rs:263-271: one word of output *)
Definition decrypt_word (buf : list Z) (offset i : Z) (st : list Z * list Z) : res (list Z * list Z) :=
  let '(pad, out) := st in
  let p := i + 127 in
  a <- get pad (Z.land (p + 1) 127) ;;
  b <- get pad (Z.land (p + 1 + 64) 127) ;;
  pad <- upd pad (Z.land p 127) (Z.lxor a b) ;;
  w <- LEu32 buf (offset + i * 4) ;;
  k <- get pad (Z.land p 127) ;;
  let output := Z.lxor w k in
  Ok (pad, out ++ [Z.land (Z.shiftr output 0) 255; Z.land (Z.shiftr output 8) 255;
                   Z.land (Z.shiftr output 16) 255; Z.land (Z.shiftr output 24) 255]).

(** arw.rs:246-273 [sony_decrypt] *)
Definition sony_decrypt (buf : list Z) (offset length key : Z) : res (list Z) :=
  pad <- sony_pad key ;;
  '(_, out) <- rfold (decrypt_word buf offset) (zrange 0 (length / 4 + 1)) (pad, []) ;;
  Ok out.

Section Arw.
Context {M : Mode}.

(** ** decode_arw1 *)

(** arw.rs:155-162: the number of bits of the next difference *)
Definition arw1_len (p : pump) : res (Z * pump) :=
  '(b, p) <- get_bits MSB p 2 ;;
  len <- u32sub 4 b ;;
  if len =? 3 then
    '(c, p) <- get_bits MSB p 1 ;;
    Ok (if negb (c =? 0) then 0 else len, p)
  else if len =? 4 then
    '(v, p) <- peek_bits MSB p 13 ;;
    zeros <- u32sub (leading_zeros v) 19 ;;
    '(_, p) <- get_bits MSB p (Z.min 13 (zeros + 1)) ;;
    Ok (len + zeros, p)
  else Ok (len, p).

(** arw.rs:163-167: the sum after the next difference.  [len] is at most 17. *)
Definition arw1_sum (len diff sum : Z) : res Z :=
  sum <- i32add sum diff ;;
  if (0 <? len) && (Z.land diff (Z.shiftl 1 (len - 1)) =? 0)
  then i32sub sum (Z.shiftl 1 len - 1) else Ok sum.

(** arw.rs:149-170: one column; [row] only grows, apart from one return to row
    1, so [2 * height + 3] turns are more than it can take. *)
Fixpoint arw1_column (fuel : nat) (width height col row : Z) (p : pump) (sum : Z) (out : list Z)
  : res (pump * Z * list Z) :=
  match fuel with
  | O => Loop
  | S fuel =>
      if row <=? height then
        let row := if row =? height then 1 else row in
        '(len, p) <- arw1_len p ;;
        '(diff, p) <- get_ibits MSB p len ;;
        sum <- arw1_sum len diff sum ;;
        out <- upd out (row * width + col) (as_u16 sum) ;;
        arw1_column fuel width height col (row + 2) p sum out
      else Ok (p, sum, out)
  end.

(** arw.rs:142-173 [decode_arw1] *)
Definition decode_arw1 (buf : list Z) (width height : Z) : res (list Z) :=
  '(_, _, out) <- rfold (fun x '(p, sum, out) =>
      let col := width - 1 - x in
      arw1_column (S (S (S (Z.to_nat (2 * height))))) width height col 0 p sum out)
    (zrange 0 width) (pump_new buf, 0, zeros (width * height)) ;;
  Ok out.

(** ** decode_arw2 *)

(** arw.rs:188-199: one pixel of a block of sixteen.  [delta_shift] is at most
    25. *)
Definition arw2_value (i imax imin max min delta_shift : Z) (p : pump) : res (Z * pump) :=
  if i =? imax then Ok (max, p)
  else if i =? imin then Ok (min, p)
  else
    '(v, p) <- get_bits LSB p 7 ;;
    s <- u32add (as_u32 (Z.shiftl v delta_shift)) min ;;
    Ok (Z.min 2047 s, p).

(** arw.rs:180-200: sixteen interleaved pixels *)
Definition arw2_half (curve : ltable) (j : Z) (st : pump * Z * list Z) : res (pump * Z * list Z) :=
  let '(p, random, out) := st in
  '(max, p) <- get_bits LSB p 11 ;;
  '(min, p) <- get_bits LSB p 11 ;;
  delta <- u32sub max min ;;
  let delta_shift := Z.max 0 (32 - leading_zeros delta - 7) in
  '(imax, p) <- get_bits LSB p 4 ;;
  '(imin, p) <- get_bits LSB p 4 ;;
  rfold (fun i '(p, random, out) =>
    '(val, p) <- arw2_value i imax imin max min delta_shift p ;;
    '(v, random) <- dither curve (as_u16 (Z.shiftl val 1)) random ;;
    out <- upd out (j + i * 2) v ;;
    Ok (p, random, out)) (zrange 0 16) (p, random, out).

(** arw.rs:177-201: a row, thirty-two pixels at a time; a row whose width is not
    a multiple of 32 ends in a shorter piece. *)
Definition arw2_line (curve : ltable) (p : pump) (random : Z) (line : list Z) : res (list Z) :=
  '(_, _, done) <- rfold (fun piece '(p, random, done) =>
      '(p, random, piece) <- rfold (arw2_half curve) (zrange 0 2) (p, random, piece) ;;
      Ok (p, random, done ++ piece)) (chunks 32 line) (p, random, []) ;;
  Ok done.

(** arw.rs:175-204 [decode_arw2] *)
Definition decode_arw2 (buf : list Z) (width height : Z) (curve : ltable) : res (list Z) :=
  decode_threaded width height (fun out row =>
    inb <- slice_from buf (row * width) ;;
    '(random, p) <- peek_bits LSB (pump_new inb) 24 ;;
    arw2_line curve p random out).

(** ** get_curve *)

(** arw.rs:236-241: the slope doubles at each of the five points.  Vec<u16>. *)
Definition curve_fill (points : list Z) : res (list Z) :=
  rfold (fun i out =>
    a <- get points i ;; b <- get points (i + 1) ;;
    rfold (fun j out =>
      v <- get out (j - 1) ;;
      w <- u16add v (Z.shiftl 1 i) ;;
      upd out j w) (zrange (a + 1) (b + 1)) out)
    (zrange 0 5) (zeros 4096).

(** arw.rs:228-244 [get_curve], from the four entries of the SonyCurve tag *)
Definition arw_curve (entries : list Z) : res ltable :=
  let points := [0] ++ map (fun v => Z.land (Z.shiftr v 2) 4095) entries ++ [4095] in
  out <- curve_fill points ;;
  lookup_new out.
End Arw.
