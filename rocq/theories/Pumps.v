(** Model of src/decoders/pumps.rs: the bit readers and the byte stream. *)
From Coq Require Import String ZArith List Bool.
From Verif Require Import Base Bytes.
Import ListNotations.
Local Open Scope Z_scope.

(** pumps.rs:3-83.  The four structs have the same fields except [finished],
    which only BitPumpJPEG has; it stays [false] for the others. *)
Inductive pkind := LSB | MSB | MSB32 | JPEG.
Record pump := mkpump {
  pbuf : list Z;    (* buffer: &[u8] *)
  ppos : Z;         (* pos: usize *)
  pbits : Z;        (* bits: u64 *)
  pnbits : Z;       (* nbits: u32 *)
  pfin : bool       (* finished: bool *)
}.

(** pumps.rs:12-19, 31-38, 50-57, 74-82 [new] *)
Definition pump_new (src : list Z) : pump := mkpump src 0 0 0 false.

Section Pump.
Context {M : Mode}.

(** pumps.rs:116-124 [BitPumpLSB::peek_bits] *)
Definition lsb_peek (p : pump) (num : Z) : res (Z * pump) :=
  p1 <- (if pnbits p <? num then
           inbits <- LEu32 (pbuf p) (ppos p) ;;
           s <- u32sub 32 (pnbits p) ;;
           hi <- shl_u 64 inbits 32 ;;
           lo <- shl_u 64 (pbits p) s ;;
           b <- shr_u 64 (Z.lor hi lo) s ;;
           nb <- u32add (pnbits p) 32 ;;
           Ok (mkpump (pbuf p) (ppos p + 4) b nb (pfin p))
         else Ok p) ;;
  s <- u32sub 32 num ;;
  mask <- shr_u 64 4294967295 s ;;
  Ok (as_u32 (Z.land (pbits p1) mask), p1).

(** pumps.rs:126-129 [BitPumpLSB::consume_bits] *)
Definition lsb_consume (p : pump) (num : Z) : res pump :=
  nb <- u32sub (pnbits p) num ;;
  b <- shr_u 64 (pbits p) num ;;
  Ok (mkpump (pbuf p) (ppos p) b nb (pfin p)).

(** [(self.bits >> (self.nbits-num)) as u32], the common tail of the three
    most-significant-first pumps: pumps.rs:140, 157, 212 *)
Definition msb_top (p : pump) (num : Z) : res Z :=
  s <- u32sub (pnbits p) num ;;
  v <- shr_u 64 (pbits p) s ;;
  Ok (as_u32 v).

(** [self.bits = (self.bits << 32) | inbits; self.pos += 4; self.nbits += 32]:
    pumps.rs:136-138, 153-155, 175-177 *)
Definition msb_push32 (p : pump) (inbits : Z) : res pump :=
  hi <- shl_u 64 (pbits p) 32 ;;
  nb <- u32add (pnbits p) 32 ;;
  Ok (mkpump (pbuf p) (ppos p + 4) (Z.lor hi inbits) nb (pfin p)).

(** pumps.rs:133-141 [BitPumpMSB::peek_bits] *)
Definition msb_peek (p : pump) (num : Z) : res (Z * pump) :=
  p1 <- (if pnbits p <? num then
           inbits <- BEu32 (pbuf p) (ppos p) ;; msb_push32 p inbits
         else Ok p) ;;
  v <- msb_top p1 num ;;
  Ok (v, p1).

(** pumps.rs:150-158 [BitPumpMSB32::peek_bits] *)
Definition msb32_peek (p : pump) (num : Z) : res (Z * pump) :=
  p1 <- (if pnbits p <? num then
           inbits <- LEu32 (pbuf p) (ppos p) ;; msb_push32 p inbits
         else Ok p) ;;
  v <- msb_top p1 num ;;
  Ok (v, p1).

(** pumps.rs:143-146, 160-163, 215-218 [consume_bits] *)
Definition msb_consume (p : pump) (num : Z) : res pump :=
  nb <- u32sub (pnbits p) num ;;
  one <- shl_u 64 1 nb ;;
  m <- arith_u 64 (one - 1) ;;
  Ok (mkpump (pbuf p) (ppos p) (Z.land (pbits p) m) nb (pfin p)).

(** pumps.rs:169-173: the guard of the fast refill, evaluated left to right. *)
Definition jpeg_fast (p : pump) : res bool :=
  lim <- usub (zlen (pbuf p)) 4 ;;
  if negb (ppos p <? lim) then Ok false else
  b0 <- get (pbuf p) (ppos p + 0) ;; if b0 =? 255 then Ok false else
  b1 <- get (pbuf p) (ppos p + 1) ;; if b1 =? 255 then Ok false else
  b2 <- get (pbuf p) (ppos p + 2) ;; if b2 =? 255 then Ok false else
  b3 <- get (pbuf p) (ppos p + 3) ;; Ok (negb (b3 =? 255)).

(** pumps.rs:181-203: the slow refill, [todo] = 4 - read_bytes. *)
Fixpoint jpeg_slow (todo : nat) (p : pump) : res pump :=
  match todo with
  | O => Ok p
  | S todo' =>
      if pfin p then Ok p else
      '(byte, skip, fin) <-
        (if zlen (pbuf p) <=? ppos p then Ok (0, 0, true)
         else
           nextbyte <- get (pbuf p) (ppos p) ;;
           if negb (nextbyte =? 255) then Ok (nextbyte, 0, false)
           else
             b1 <- get (pbuf p) (ppos p + 1) ;;
             if b1 =? 0 then Ok (nextbyte, 1, false) else Ok (0, 0, true)) ;;
      hi <- shl_u 64 (pbits p) 8 ;;
      nb <- u32add (pnbits p) 8 ;;
      jpeg_slow todo' (mkpump (pbuf p) (ppos p + skip + 1) (Z.lor hi byte) nb fin)
  end.

(** pumps.rs:167-213 [BitPumpJPEG::peek_bits] *)
Definition jpeg_peek (p : pump) (num : Z) : res (Z * pump) :=
  p1 <- (if (pnbits p <? num) && negb (pfin p) then
           fast <- jpeg_fast p ;;
           if fast then inbits <- BEu32 (pbuf p) (ppos p) ;; msb_push32 p inbits
           else jpeg_slow 4 p
         else Ok p) ;;
  p2 <- (if (pnbits p1 <? num) && pfin p1 then
           b <- shl_u 64 (pbits p1) 32 ;;
           nb <- u32add (pnbits p1) 32 ;;
           Ok (mkpump (pbuf p1) (ppos p1) b nb (pfin p1))
         else Ok p1) ;;
  v <- msb_top p2 num ;;
  Ok (v, p2).

(** Trait dispatch, pumps.rs:85-87 *)
Definition peek_bits (k : pkind) (p : pump) (num : Z) : res (Z * pump) :=
  match k with
  | LSB => lsb_peek p num
  | MSB => msb_peek p num
  | MSB32 => msb32_peek p num
  | JPEG => jpeg_peek p num
  end.
Definition consume_bits (k : pkind) (p : pump) (num : Z) : res pump :=
  match k with
  | LSB => lsb_consume p num
  | _ => msb_consume p num
  end.

(** pumps.rs:89-98 [get_bits] *)
Definition get_bits (k : pkind) (p : pump) (num : Z) : res (Z * pump) :=
  if num =? 0 then Ok (0, p) else
  '(v, p1) <- peek_bits k p num ;;
  p2 <- consume_bits k p1 num ;;
  Ok (v, p2).
(** pumps.rs:100-102 [peek_ibits] *)
Definition peek_ibits (k : pkind) (p : pump) (num : Z) : res (Z * pump) :=
  '(v, p1) <- peek_bits k p num ;; Ok (as_i32 v, p1).
(** pumps.rs:104-106 [get_ibits] *)
Definition get_ibits (k : pkind) (p : pump) (num : Z) : res (Z * pump) :=
  '(v, p1) <- get_bits k p num ;; Ok (as_i32 v, p1).

(** [i32::wrapping_shl] and [i32::wrapping_shr]: the amount is taken modulo 32. *)
Definition i32_wrapping_shl (v s : Z) : Z := as_i32 (Z.shiftl v (s mod 32)).
Definition i32_wrapping_shr (v s : Z) : Z := Z.shiftr v (s mod 32).
(** pumps.rs:109-112 [get_ibits_sextended] *)
Definition get_ibits_sextended (k : pkind) (p : pump) (num : Z) : res (Z * pump) :=
  '(v, p1) <- get_ibits k p num ;;
  s <- u32sub 32 num ;;
  Ok (i32_wrapping_shr (i32_wrapping_shl v s) s, p1).

(** pumps.rs:59-61 [BitPumpMSB32::get_pos] *)
Definition msb32_get_pos (p : pump) : res Z :=
  usub (ppos p) (Z.shiftr (pnbits p) 3).
End Pump.

(** pumps.rs:221-278 [ByteStream] *)
Record bstream := mkbs { bsbuf : list Z; bspos : Z; bsend : endian }.
Definition bs_new (src : list Z) (e : endian) : bstream := mkbs src 0 e.
(** pumps.rs:239 *)
Definition bs_peek_u8 (s : bstream) : res Z := get (bsbuf s) (bspos s).
(** pumps.rs:240-244 *)
Definition bs_get_u8 (s : bstream) : res (Z * bstream) :=
  v <- bs_peek_u8 s ;; Ok (v, mkbs (bsbuf s) (bspos s + 1) (bsend s)).
(** pumps.rs:246 *)
Definition bs_peek_u16 (s : bstream) : res Z := ru16 (bsend s) (bsbuf s) (bspos s).
(** pumps.rs:247-251 *)
Definition bs_get_u16 (s : bstream) : res (Z * bstream) :=
  v <- bs_peek_u16 s ;; Ok (v, mkbs (bsbuf s) (bspos s + 2) (bsend s)).
(** pumps.rs:260-262 *)
Definition bs_consume (s : bstream) (num : Z) : bstream :=
  mkbs (bsbuf s) (bspos s + num) (bsend s).
(** pumps.rs:264-277 [skip_to_marker].  [fuel] bounds the number of skipped
    bytes; the caller passes the buffer length + 1, which is enough because the
    position grows by one at every iteration and leaves the buffer. *)
Fixpoint bs_skip_loop (fuel : nat) (s : bstream) (skip_count : Z) : res (Z * bstream) :=
  match fuel with
  | O => Loop
  | S fuel' =>
      b0 <- get (bsbuf s) (bspos s) ;;
      stop <- (if b0 =? 255 then
                 b1 <- get (bsbuf s) (bspos s + 1) ;;
                 Ok (negb (b1 =? 0) && negb (b1 =? 255))
               else Ok false) ;;
      if stop then Ok (skip_count + 1, bs_consume s 1)
      else
        let s' := bs_consume s 1 in
        if zlen (bsbuf s) <=? bspos s' then Err "No marker found inside rest of buffer"%string
        else bs_skip_loop fuel' s' (skip_count + 1)
  end.
Definition bs_skip_to_marker (s : bstream) : res (Z * bstream) :=
  bs_skip_loop (S (length (bsbuf s))) s 0.
