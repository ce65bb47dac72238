(** Model of src/decoders/ljpeg/huffman.rs: Huffman tables. *)
From Coq Require Import String ZArith List Bool.
From Verif Require Import Base Pumps.
Import ListNotations.
Local Open Scope Z_scope.

(** huffman.rs:59-76 [struct HuffTable] *)
Record hufftable := mkhuff {
  hbits : list Z;       (* bits: [u32;17] *)
  hval : list Z;        (* huffval: [u32;256] *)
  hmin : list Z;        (* mincode: [u16;17] *)
  hmax : list Z;        (* maxcode: [i32;18] *)
  hvalptr : list Z;     (* valptr: [i16;17] *)
  hnumbits : list Z;    (* numbits: [u32;256] *)
  hbig : list Z;        (* bigtable: Vec<i32> *)
  hprec : Z;            (* precision: usize *)
  huse_big : bool;      (* use_bigtable *)
  hdng : bool;          (* dng_bug *)
  hinit : bool          (* initialized *)
}.

(** huffman.rs:79-93 [HuffTable::empty] *)
Definition huff_empty (precision : Z) : hufftable :=
  mkhuff (zeros 17) (zeros 256) (zeros 17) (zeros 18) (zeros 17) (zeros 256) []
         precision true false false.

Definition too_long : string := "ljpeg: Code length too long. Corrupt data."%string.

(** huffman.rs:118-128, figure C.1: huffsize and the number of codes *)
Definition huff_sizes (bits : list Z) : res (list Z * Z) :=
  rfold (fun l st =>
    b <- get bits l ;;
    rfold (fun _ '(hs, p) =>
      hs' <- upd hs p l ;;
      if 256 <? p + 1 then Err too_long else Ok (hs', p + 1))
    (zrange 1 (b + 1)) st)
  (zrange 1 17) (zeros 257, 0).

(** [i32 << s]; only used with a left operand of 0 or 1 *)
Definition shl_i32 {M : Mode} (a s : Z) : res Z :=
  s' <- shamt 32 s ;; Ok (as_i32 (Z.shiftl a s')).

Section Huff.
Context {M : Mode}.

(** huffman.rs:139-143: the inner loop of figure C.2.  [fuel] only has to exceed
    the number of positions, 257: [huffsize[p]] panics beyond. *)
Fixpoint huff_codes_run (fuel : nat) (hs : list Z) (si : Z) (hc : list Z) (p code : Z)
  : res (list Z * Z * Z) :=
  match fuel with
  | O => Loop
  | S fuel' =>
      s <- get hs p ;;
      if s =? si then
        hc' <- upd hc p code ;;
        code' <- u16add code 1 ;;
        huff_codes_run fuel' hs si hc' (p + 1) code'
      else Ok (hc, p, code)
  end.
(** huffman.rs:138-149: the outer loop of figure C.2.  Each turn adds one to
    [si]; 300 turns are enough for every table, as the sizes are at most 16. *)
Fixpoint huff_codes_loop (fuel : nat) (hs : list Z) (si : Z) (hc : list Z) (p code : Z)
  : res (list Z) :=
  match fuel with
  | O => Loop
  | S fuel' =>
      s <- get hs p ;;
      if 0 <? s then
        '(hc', p', code') <- huff_codes_run 300 hs si hc p code ;;
        si' <- u32add si 1 ;;
        if 256 <? p' then Err too_long
        else huff_codes_loop fuel' hs si' hc' p' (as_u16 (Z.shiftl code' 1))
      else Ok hc
  end.
(** huffman.rs:133-149 *)
Definition huff_codes (hs : list Z) : res (list Z) :=
  s0 <- get hs 0 ;; huff_codes_loop 300 hs s0 (zeros 257) 0 0.

(** huffman.rs:152-174, figure F.15: valptr, mincode, maxcode *)
Definition huff_pointers (bits hc vp0 mn0 mx0 : list Z) : res (list Z * list Z * list Z) :=
  mn1 <- upd mn0 0 0 ;;
  mx1 <- upd mx0 0 0 ;;
  '(vp, mn, mx, _) <-
    rfold (fun l '(vp, mn, mx, p) =>
      b <- get bits l ;;
      '(vp', mn', mx', p') <-
        (if 0 <? b then
           vp' <- upd vp l (as_i16 p) ;;
           c <- get hc p ;; mn' <- upd mn l c ;;
           let p' := p + b in
           c' <- get hc (p' - 1) ;; mx' <- upd mx l c' ;;
           Ok (vp', mn', mx', p')
         else
           vp' <- upd vp l 255 ;;
           mx' <- upd mx l (-1) ;;
           Ok (vp', mn, mx', p)) ;;
      if 256 <? p' then Err too_long else Ok (vp', mn', mx', p'))
    (zrange 1 17) (vp0, mn1, mx1, 0) ;;
  mx2 <- upd mx 17 1048575 ;;
  Ok (vp, mn, mx2).

(** huffman.rs:42-57 [HUFF_BITMASK] *)
Definition huff_bitmask (i : Z) : Z := 2 ^ (32 - i) - 1.

(** huffman.rs:181-199: the table of the codes of at most eight bits *)
Definition huff_numbits (hs hc vals : list Z) (lastp : Z) (nb0 : list Z) : res (list Z) :=
  rfold (fun p nb =>
    size <- get hs p ;;
    if size <=? 8 then
      v <- get vals p ;;
      let value := as_i32 v in
      code <- get hc p ;;
      ll <- shl_u 16 code (8 - size) ;;
      let ul := if size <? 8 then Z.lor ll (as_i32 (huff_bitmask (24 + size))) else ll in
      if (256 <? ul) || (ul <? ll) then Err too_long
      else rfold (fun i nb => upd nb i (Z.lor size (as_u32 (Z.shiftl (as_u32 value) 4))))
                 (zrange ll (ul + 1)) nb
    else Ok nb)
  (zrange 0 lastp) nb0.

(** huffman.rs:222-226: [while code > maxcode[l] && l < 16] *)
Fixpoint big_walk (fuel : nat) (mx : list Z) (input code l : Z) : res (Z * Z) :=
  match fuel with
  | O => Loop
  | S fuel' =>
      m <- get mx l ;;
      if (m <? code) && (l <? 16) then
        t <- shr_u 16 input (15 - l) ;;
        big_walk fuel' mx input (Z.lor (Z.shiftl code 1) (Z.land t 1)) (l + 1)
      else Ok (code, l)
  end.

(** huffman.rs:241-263: the entry for a symbol [rv] whose code has [l] bits *)
Definition big_value (dng : bool) (input rv l : Z) : res Z :=
  if rv =? 16 then
    Ok (if dng then Z.lor (- (Z.shiftl 32768 8)) (16 + l) else Z.lor (- (Z.shiftl 32768 8)) l)
  else if 13 <? rv + l then Ok 255
  else if negb (rv =? 0) then
    t <- shr_u 16 input (16 - l - rv) ;;
    m <- shl_u 16 1 rv ;; m' <- u16sub m 1 ;;
    let x := Z.land t m' in
    b <- shl_i32 1 (rv - 1) ;;
    x' <- (if Z.land x b =? 0 then
             b' <- shl_i32 1 rv ;; b'' <- i32sub b' 1 ;; i32sub x b''
           else Ok x) ;;
    Ok (Z.lor (as_i32 (Z.shiftl x' 8)) (l + rv))
  else Ok l.

(** huffman.rs:213-263: entry [i] of the 13-bit table *)
Definition big_entry (t : hufftable) (i : Z) : res Z :=
  let input := as_u16 (Z.shiftl i 3) in
  let code := Z.shiftr input 8 in
  val <- get (hnumbits t) code ;;
  let l := Z.land val 15 in
  if 0 <? l then big_value (hdng t) input (as_i32 (Z.shiftr val 4)) l
  else
    '(code, l) <- big_walk 10 (hmax t) input code 8 ;;
    if as_u32 (hprec t) <? l then Ok 255 else
    vp <- get (hvalptr t) l ;;
    if vp =? 255 then Ok 255 else
    mn <- get (hmin t) l ;;
    idx <- uadd (as_u64 vp) (as_u64 (code - mn)) ;;
    rv <- get (hval t) idx ;;
    big_value (hdng t) input (as_i32 rv) l.

(** huffman.rs:208-265 [initialize_bigtable].  Entry [i] depends on [i] and on
    the other tables only, so the vector is built in one go. *)
Definition huff_bigtable (t : hufftable) : res (list Z) :=
  mapM (big_entry t) (zrange 0 8192).

(** huffman.rs:115-206 [initialize] *)
Definition huff_initialize (t : hufftable) (use_bigtable : bool) : res hufftable :=
  '(hs, lastp) <- huff_sizes (hbits t) ;;
  hs <- upd hs lastp 0 ;;
  hc <- huff_codes hs ;;
  '(vp, mn, mx) <- huff_pointers (hbits t) hc (hvalptr t) (hmin t) (hmax t) ;;
  nb <- huff_numbits hs hc (hval t) lastp (hnumbits t) ;;
  let t1 := mkhuff (hbits t) (hval t) mn mx vp nb (hbig t) (hprec t) (huse_big t) (hdng t) (hinit t) in
  big <- (if use_bigtable then huff_bigtable t1 else Ok (hbig t1)) ;;
  Ok (mkhuff (hbits t) (hval t) mn mx vp nb big (hprec t) use_bigtable (hdng t) true).

(** huffman.rs:95-113 [HuffTable::new] *)
Definition huff_new (bits huffval : list Z) (precision : Z) (dng_bug : bool) : res hufftable :=
  huff_initialize (mkhuff bits huffval (zeros 17) (zeros 18) (zeros 17) (zeros 256) []
                          precision true dng_bug false) true.

(** huffman.rs:291-298: [while code as i32 > maxcode[l]] *)
Fixpoint len_walk (fuel : nat) (k : pkind) (mx : list Z) (code l : Z) (p : pump) : res (Z * Z * pump) :=
  match fuel with
  | O => Loop
  | S fuel' =>
      m <- get mx l ;;
      if m <? as_i32 code then
        '(temp, p1) <- get_bits k p 1 ;;
        len_walk fuel' k mx (Z.lor (Z.shiftl code 1) temp) (l + 1) p1
      else Ok (code, l, p)
  end.

(** huffman.rs:284-309 [huff_len] *)
Definition huff_len (k : pkind) (t : hufftable) (p : pump) : res (Z * pump) :=
  '(code, p1) <- peek_bits k p 8 ;;
  val <- get (hnumbits t) code ;;
  let len := Z.land val 15 in
  if negb (len =? 0) then
    p2 <- consume_bits k p1 len ;; Ok (Z.shiftr val 4, p2)
  else
    p2 <- consume_bits k p1 8 ;;
    '(code, l, p3) <- len_walk 12 k (hmax t) code 8 p2 ;;
    if hprec t <? l then Err "ljpeg: bad Huffman code"%string else
    vp <- get (hvalptr t) l ;;
    if vp =? 255 then Err "ljpeg: bad Huffman code"%string else
    mn <- get (hmin t) l ;;
    d <- usub code mn ;;
    idx <- uadd (as_u64 vp) d ;;
    v <- get (hval t) idx ;;
    Ok (v, p3).

(** huffman.rs:311-329 [huff_diff] *)
Definition huff_diff (k : pkind) (t : hufftable) (p : pump) (len : Z) : res (Z * pump) :=
  if len =? 0 then Ok (0, p)
  else if len =? 16 then
    if hdng t then '(_, p1) <- get_bits k p 16 ;; Ok (-32768, p1)
    else Ok (-32768, p)
  else
    '(v, p1) <- get_bits k p len ;;
    let diff := as_i32 v in
    n <- u32sub len 1 ;;
    b <- shl_i32 1 n ;;
    if Z.land diff b =? 0 then
      b' <- shl_i32 1 len ;; b'' <- i32sub b' 1 ;; d <- i32sub diff b'' ;; Ok (d, p1)
    else Ok (diff, p1).

(** huffman.rs:268-282 [huff_decode] *)
Definition huff_slow (k : pkind) (t : hufftable) (p : pump) : res (Z * pump) :=
  '(len, p1) <- huff_len k t p ;; huff_diff k t p1 len.
Definition huff_decode (k : pkind) (t : hufftable) (p : pump) : res (Z * pump) :=
  if huse_big t then
    '(code, p1) <- peek_bits k p 13 ;;
    val <- get (hbig t) code ;;
    if negb (Z.land val 255 =? 255) then
      p2 <- consume_bits k p1 (Z.land val 255) ;; Ok (Z.shiftr val 8, p2)
    else huff_slow k t p1
  else huff_slow k t p.

(** Clients: a fresh reader over [buf], [n] symbols or [n] differences, and
    then the next [m] bits. *)
Fixpoint times (f : pump -> res (Z * pump)) (n : nat) (p : pump) : res (list Z * pump) :=
  match n with
  | O => Ok ([], p)
  | S n' => '(v, p1) <- f p ;; '(vs, p2) <- times f n' p1 ;; Ok (v :: vs, p2)
  end.
Definition read_symbols (k : pkind) (t : hufftable) (buf : list Z) (n m : nat) : res (list Z * Z) :=
  '(vs, p) <- times (huff_len k t) n (pump_new buf) ;;
  '(v, _) <- get_bits k p (Z.of_nat m) ;; Ok (vs, v).
Definition read_diffs (k : pkind) (t : hufftable) (buf : list Z) (n m : nat) : res (list Z * Z) :=
  '(vs, p) <- times (huff_decode k t) n (pump_new buf) ;;
  '(v, _) <- get_bits k p (Z.of_nat m) ;; Ok (vs, v).
End Huff.

(** The same table with the 13-bit shortcut switched off. *)
Definition without_bigtable (t : hufftable) : hufftable :=
  mkhuff (hbits t) (hval t) (hmin t) (hmax t) (hvalptr t) (hnumbits t) (hbig t)
         (hprec t) false (hdng t) (hinit t).
