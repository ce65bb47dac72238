(** Model of src/decoders/cfa.rs: the colour filter array. *)
From Coq Require Import String Ascii ZArith List Bool.
From Verif Require Import Base.
Import ListNotations.
Local Open Scope Z_scope.

(** The bytes of a Rust [&str]. *)
Definition bytes_of (s : string) : list Z :=
  map (fun c => Z.of_N (N_of_ascii c)) (list_ascii_of_string s).

(** Decimal rendering of a [usize] by [format!("{}", x)]. *)
Fixpoint dec_digits (fuel : nat) (n : Z) (acc : string) : string :=
  match fuel with
  | O => acc
  | S fuel' =>
      let acc' := String (ascii_of_N (Z.to_N (48 + n mod 10))) acc in
      if n / 10 =? 0 then acc' else dec_digits fuel' (n / 10) acc'
  end.
Definition show_usize (n : Z) : string := dec_digits 20 n EmptyString.

(** cfa.rs:20-26 [struct CFA].  [cpat] is the 48x48 matrix, row by row. *)
Record CFA := mkcfa { cname : string; cwidth : Z; cheight : Z; cpat : list Z }.

(** [pattern[row][col]] read and written, with the two bounds checks. *)
Definition pat_get (p : list Z) (row col : Z) : res Z :=
  if (0 <=? row) && (row <? 48) && (0 <=? col) && (col <? 48)
  then get p (row * 48 + col) else Panic.
Definition pat_set (p : list Z) (row col v : Z) : res (list Z) :=
  if (0 <=? row) && (row <? 48) && (0 <=? col) && (col <? 48)
  then upd p (row * 48 + col) v else Panic.

(** [for row in 0..48 { for col in 0..48 { .. } }] *)
Definition cells48 : list (Z * Z) :=
  flat_map (fun row => map (fun col => (row, col)) (zrange 0 48)) (zrange 0 48).

(** cfa.rs:51-58 *)
Definition cfa_dims (len : Z) : res (Z * Z) :=
  if len =? 0 then Ok (0, 0)
  else if len =? 4 then Ok (2, 2)
  else if len =? 36 then Ok (6, 6)
  else if len =? 16 then Ok (2, 8)
  else if len =? 144 then Ok (12, 12)
  else Panic.

(** cfa.rs:64-72: the byte is one of the letters of the match. *)
Definition cfa_color (c : Z) : res Z :=
  if c =? 82 (* R *) then Ok 0
  else if c =? 71 (* G *) then Ok 1
  else if c =? 66 (* B *) then Ok 2
  else if c =? 69 (* E *) then Ok 3
  else if c =? 77 (* M *) then Ok 1
  else if c =? 89 (* Y *) then Ok 3
  else Panic.

(** cfa.rs:50-90 [CFA::new] *)
Definition cfa_new (patname : string) : res CFA :=
  let bs := bytes_of patname in
  '(width, height) <- cfa_dims (zlen bs) ;;
  let pattern := zeros (48 * 48) in
  if 0 <? width then
    p1 <- rfold (fun '(i, c) p => v <- cfa_color c ;; pat_set p (i / width) (i mod width) v)
                (combine (zrange 0 (zlen bs)) bs) pattern ;;
    p2 <- rfold (fun '(row, col) p =>
                   v <- pat_get p (row mod height) (col mod width) ;; pat_set p row col v)
                cells48 p1 ;;
    Ok (mkcfa patname width height p2)
  else Ok (mkcfa patname width height pattern).

Section Cfa.
Context {M : Mode}.
(** cfa.rs:94-96 [color_at]; the additions are usize additions. *)
Definition color_at (f : CFA) (row col : Z) : res Z :=
  r <- uadd row 48 ;; c <- uadd col 48 ;;
  pat_get (cpat f) (r mod 48) (c mod 48).

(** cfa.rs:116-130 [shift] *)
Definition cfa_shift (f : CFA) (x y : Z) : res CFA :=
  p <- rfold (fun '(row, col) p =>
                r <- uadd row y ;; c <- uadd col x ;;
                v <- color_at f r c ;; pat_set p row col v)
             cells48 (zeros (48 * 48)) ;;
  Ok (mkcfa ("shifted-" ++ show_usize x ++ "-" ++ show_usize y ++ "-" ++ cname f)%string
            (cwidth f) (cheight f) p).

(** image.rs:275-277 [cropped_cfa]; [crops] is top, right, bottom, left. *)
Definition cropped_cfa (f : CFA) (crops : list Z) : res CFA :=
  x <- get crops 3 ;; y <- get crops 0 ;; cfa_shift f x y.
End Cfa.

(** cfa.rs:143-145 [is_valid] *)
Definition cfa_is_valid (f : CFA) : bool := negb (cwidth f =? 0) && negb (cheight f =? 0).

(** cfa.rs:154-167 [clone]: copies the matrix cell by cell. *)
Definition cfa_clone (f : CFA) : res CFA :=
  p <- rfold (fun '(row, col) p => v <- pat_get (cpat f) row col ;; pat_set p row col v)
             cells48 (zeros (48 * 48)) ;;
  Ok (mkcfa (cname f) (cwidth f) (cheight f) p).
