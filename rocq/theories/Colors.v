(** Model of src/imageops/level.rs, gamma.rs, colorspaces.rs and curves.rs. *)
From Coq Require Import String ZArith List Bool.
From Verif Require Import Base Num Threads Cfa Transform Image Gofloat.
Import ListNotations.
Local Open Scope Z_scope.

Section Colors.
Context {M : Mode} {A : Type} {N : Num A}.

(** imageops/mod.rs:35-41 [mutate_lines] with a closure that goes through the
    line in pieces of [n]. *)
Definition mutate_pixels (n : nat) (f : list A -> res (list A)) (buf : opbuf A) : res (opbuf A) :=
  d <- par_lines (owidth buf * ocolors buf) (odata buf) (fun line _ =>
         ps <- mapM f (chunks n line) ;; Ok (concat ps)) ;;
  Ok (mkop (owidth buf) (oheight buf) (ocolors buf) d).

(** ** level.rs *)

(** level.rs:9-17 *)
Definition level_coeffs (img : rawimage A) : vec4 A :=
  let wb := i_wb img in
  if is_monochrome img then V4 n1 n1 n1 n1
  else if negb (n_normal (e0 wb)) || negb (n_normal (e1 wb)) || negb (n_normal (e2 wb)) then neutralwb (i_xyz_to_cam img)
  else wb.
(** level.rs:20-21 *)
Definition level_mul (coeffs : vec4 A) : vec4 A :=
  map4 (fun x => if negb (n_normal x) then n1 else n_div x (e1 coeffs)) coeffs.
(** level.rs:25-28, for one component *)
Definition level_value (black white mul v : A) : A :=
  n_min (n_mul (n_div (n_sub v black) (n_sub white black)) mul) n1.
(** level.rs:4-31 [level_and_balance] *)
Definition level_and_balance (img : rawimage A) (buf : opbuf A) : res (opbuf A) :=
  let mul := level_mul (level_coeffs img) in
  let value c v := level_value (n_of (at4 (i_blacks img) c)) (n_of (at4 (i_whites img) c)) (at4 mul c) v in
  mutate_pixels 4 (fun pix =>
    rfold (fun c pix => v <- get pix c ;; upd pix c (value c v)) (zrange 0 4) pix) buf.

(** ** gamma.rs *)

(** gamma.rs:12-19: entry [i] of the table *)
Definition gamma_entry (i : Z) : A :=
  let v := n_div (n_of i) (n_of 65536) in
  if n_le v (lit 18 1000) then n_mul (lit 45 10) v
  else n_sub (n_mul (n_add n1 (lit 99 1000)) (n_pow v (lit 45 100))) (lit 99 1000).
(** gamma.rs:23: the index.  The table has 65537 entries; here an entry is
    computed when it is needed. *)
Definition gamma_index (v : A) : Z := to_usize (n_min (n_mul (n_max v n0) (n_of 65536)) (n_of 65536)).
Definition gamma_value (v : A) : res A :=
  let i := gamma_index v in if i <? 65537 then Ok (gamma_entry i) else Panic.
(** gamma.rs:4-26 [gamma] *)
Definition gamma (buf : opbuf A) : res (opbuf A) :=
  mutate_pixels 1 (fun pix => v <- get pix 0 ;; g <- gamma_value v ;; upd pix 0 g) buf.

(** ** colorspaces.rs *)

(** colorspaces.rs:48-68 [inverse] *)
Definition inverse (m : vec3 (vec3 A)) : vec3 (vec3 A) :=
  let m00 := a0 (a0 m) in let m01 := a1 (a0 m) in let m02 := a2 (a0 m) in
  let m10 := a0 (a1 m) in let m11 := a1 (a1 m) in let m12 := a2 (a1 m) in
  let m20 := a0 (a2 m) in let m21 := a1 (a2 m) in let m22 := a2 (a2 m) in
  let invdet := (n1 / (m00 * (m11 * m22 - m21 * m12) - m01 * (m10 * m22 - m12 * m20) + m02 * (m10 * m21 - m11 * m20)))%num in
  (V3 (V3 ((m11 * m22 - m21 * m12) * invdet) (n_opp (m01 * m22 - m02 * m21) * invdet) ((m01 * m12 - m02 * m11) * invdet))
      (V3 (n_opp (m10 * m22 - m12 * m20) * invdet) ((m00 * m22 - m02 * m20) * invdet) (n_opp (m00 * m12 - m10 * m02) * invdet))
      (V3 ((m10 * m21 - m20 * m11) * invdet) (n_opp (m00 * m21 - m20 * m01) * invdet) ((m00 * m11 - m10 * m01) * invdet)))%num.
(** colorspaces.rs:70-79 [xyz_to_rec709_matrix] *)
Definition xyz_to_rec709_matrix : vec3 (vec3 A) := inverse rgb_to_xyz.

(** colorspaces.rs:93-103 [CBRT_LOOKUP]: entry [i] of the table of 65537 *)
Definition cbrt_entry (i : Z) : A := n_cbrt (n_div (n_of i) (n_of 65536)).
Definition cbrt_lookup (val : A) : res A :=
  let i := to_usize (n_mul val (n_of 65536)) in if i <? 65537 then Ok (cbrt_entry i) else Panic.
(** colorspaces.rs:106-108 *)
Definition lab_cutoff : A := n_mul (n_mul (lit 6 29) (lit 6 29)) (lit 6 29).
Definition lab_multiplier : A := n_mul (n_mul (lit 1 3) (lit 29 6)) (lit 29 6).
Definition lab_constant : A := lit 4 29.
(** colorspaces.rs:105-119 [labf].  [root] is the use of the table. *)
Definition labf_with (root : A -> res A) (val : A) : res A :=
  if n_lt lab_cutoff val then
    if n_lt n0 val && n_lt val n1 then root val else Ok (n_cbrt val)
  else Ok (n_add (n_mul val lab_multiplier) lab_constant).
Definition labf : A -> res A := labf_with cbrt_lookup.
(** colorspaces.rs:81-90 [xyz_to_lab] *)
Definition xw : A := lit 9642 10000.
Definition yw : A := lit 1 1.
Definition zw : A := lit 8249 10000.
Definition xyz_to_lab_with (root : A -> res A) (x y z : A) : res (vec3 A) :=
  fy <- labf_with root (n_div y yw) ;;
  fx <- labf_with root (n_div x xw) ;;
  fz <- labf_with root (n_div z zw) ;;
  let l := (n_of 116 * fy - n_of 16)%num in
  let a := (n_of 500 * (fx - fy))%num in
  let b := (n_of 200 * (fy - fz))%num in
  Ok (V3 (l / n_of 100)%num ((a + n_of 128) / n_of 256)%num ((b + n_of 128) / n_of 256)%num).
Definition xyz_to_lab : A -> A -> A -> res (vec3 A) := xyz_to_lab_with cbrt_lookup.

(** colorspaces.rs:136-145 [labinvf] *)
Definition labinvf (val : A) : A :=
  let multiplier := (n_of 3 * lit 6 29 * lit 6 29)%num in
  let constant := (multiplier * (n_opp (n_of 4) / n_of 29))%num in
  if n_lt (lit 6 29) val then (val * val * val)%num else (val * multiplier + constant)%num.
(** colorspaces.rs:121-134 [lab_to_xyz] *)
Definition lab_to_xyz (l a b : A) : vec3 A :=
  (let cl := l * n_of 100 in
   let ca := (a * n_of 256) - n_of 128 in
   let cb := (b * n_of 256) - n_of 128 in
   V3 (xw * labinvf (lit 1 116 * (cl + n_of 16) + lit 1 500 * ca))
      (yw * labinvf (lit 1 116 * (cl + n_of 16)))
      (zw * labinvf (lit 1 116 * (cl + n_of 16) - lit 1 200 * cb)))%num.

(** colorspaces.rs:9-24: one pixel *)
Definition to_lab (m : vec3 (vec4 A)) (pix : list A) : res (list A) :=
  r <- get pix 0 ;; g <- get pix 1 ;; b <- get pix 2 ;; e <- get pix 3 ;;
  let dot (v : vec4 A) := (r * e0 v + g * e1 v + b * e2 v + e * e3 v)%num in
  lab <- xyz_to_lab (dot (a0 m)) (dot (a1 m)) (dot (a2 m)) ;;
  Ok [a0 lab; a1 lab; a2 lab].
(** colorspaces.rs:4-26 [camera_to_lab], with imageops/mod.rs:43-52
    [process_into_new] *)
Definition camera_to_lab (img : rawimage A) (inb : opbuf A) : res (opbuf A) :=
  let m := cam_to_xyz (i_xyz_to_cam img) in
  let out := op_new n0 (owidth inb) (oheight inb) 3 in
  d <- par_lines (owidth out * 3) (odata out) (fun line row =>
         src <- slice_from (odata inb) (owidth inb * ocolors inb * row) ;;
         zip_chunks 3 4 line src (fun _ o i =>
           lab <- to_lab m i ;;
           l <- get lab 0 ;; o <- upd o 0 l ;; a <- get lab 1 ;; o <- upd o 1 a ;; b <- get lab 2 ;; upd o 2 b)) ;;
  Ok (mkop (owidth out) (oheight out) 3 d).

(** colorspaces.rs:31-42: one pixel *)
Definition to_rec709 (pix : list A) : res (list A) :=
  let m := xyz_to_rec709_matrix in
  l <- get pix 0 ;; a <- get pix 1 ;; b <- get pix 2 ;;
  let c := lab_to_xyz l a b in
  let dot (v : vec3 A) := (a0 c * a0 v + a1 c * a1 v + a2 c * a2 v)%num in
  pix <- upd pix 0 (dot (a0 m)) ;; pix <- upd pix 1 (dot (a1 m)) ;; upd pix 2 (dot (a2 m)).
(** colorspaces.rs:28-46 [lab_to_rec709] *)
Definition lab_to_rec709 (buf : opbuf A) : res (opbuf A) := mutate_pixels 3 to_rec709 buf.

(** ** curves.rs *)

(** curves.rs:21-27 [SplineFunc] *)
Record spline := mkspline { s_xs : list A; s_ys : list A; s_c1 : list A; s_c2 : list A; s_c3 : list A }.

(** curves.rs:36-45: differences and slopes *)
Definition spline_slopes (xs ys : list A) : res (list (A * A)) :=
  mapM (fun i =>
    a <- get xs (i + 1) ;; b <- get xs i ;; c <- get ys (i + 1) ;; d <- get ys i ;;
    let dx := n_sub a b in Ok (dx, n_div (n_sub c d) dx)) (zrange 0 (zlen xs - 1)).
(** curves.rs:49-60: the slope at an inner point *)
Definition spline_inner (dx m dxnext next : A) : A :=
  (if n_le (m * next) n0 then n0
   else let common := dx + dxnext in
        n_of 3 * common / ((common + dxnext) / m + (common + dx) / next))%num.
(** curves.rs:64-73: the coefficients of one piece *)
Definition spline_coeffs (dx slope c1 c1next : A) : A * A :=
  (let invdx := n1 / dx in
   let common := c1 + c1next - slope - slope in
   ((slope - c1 - common) * invdx, common * invdx * invdx))%num.
(** curves.rs:31-83 [SplineFunc::new] *)
Definition spline_new (xs ys : list A) : res spline :=
  if negb (zlen xs =? zlen ys) then Panic
  else if zlen xs <? 2 then Panic
  else
    ds <- spline_slopes xs ys ;;
    first <- get ds 0 ;;
    inner <- mapM (fun i =>
      a <- get ds i ;; b <- get ds (i + 1) ;;
      Ok (spline_inner (fst a) (snd a) (fst b) (snd b))) (zrange 0 (zlen ds - 1)) ;;
    last <- get ds (zlen ds - 1) ;;
    let c1s := snd first :: inner ++ [snd last] in
    cs <- mapM (fun i =>
      c1 <- get c1s i ;; next <- get c1s (i + 1) ;; d <- get ds i ;;
      Ok (spline_coeffs (fst d) (snd d) c1 next)) (zrange 0 (zlen c1s - 1)) ;;
    Ok (mkspline xs ys c1s (map fst cs) (map snd cs)).

(** curves.rs:97-104: the search.  [inl] is an early return of a control
    value; the numbers are isize. *)
Fixpoint spline_search (fuel : nat) (s : spline) (val : A) (low high : Z) : res (A + Z) :=
  match fuel with
  | O => Loop
  | S fuel =>
      if low <=? high then
        let mid := Z.quot (low + high) 2 in
        xhere <- get (s_xs s) mid ;;
        if n_lt xhere val then spline_search fuel s val (mid + 1) high
        else if n_lt val xhere then spline_search fuel s val low (mid - 1)
        else y <- get (s_ys s) mid ;; Ok (inl y)
      else Ok (inr (Z.max 0 high))
  end.
(** curves.rs:85-109 [interpolate] *)
Definition interpolate (s : spline) (val : A) : res A :=
  last_ <- usub (zlen (s_xs s)) 1 ;;
  end_ <- get (s_xs s) last_ ;;
  if n_le end_ val then
    l <- usub (zlen (s_ys s)) 1 ;; get (s_ys s) l
  else
    high <- usub (zlen (s_c3 s)) 1 ;;
    r <- spline_search (S (S (length (s_c3 s)))) s val 0 high ;;
    match r with
    | inl y => Ok y
    | inr i =>
        x <- get (s_xs s) i ;; let diff := n_sub val x in
        y <- get (s_ys s) i ;; c1 <- get (s_c1 s) i ;; c2 <- get (s_c2 s) i ;; c3 <- get (s_c3 s) i ;;
        Ok (y + c1 * diff + c2 * diff * diff + c3 * diff * diff * diff)%num
    end.

(** curves.rs:6-7 *)
Definition base_xs : list A := [lit 0 1; lit 30 100; lit 5 10; lit 70 100; lit 1 1].
Definition base_ys : list A := [lit 0 1; lit 25 100; lit 5 10; lit 75 100; lit 1 1].
(** curves.rs:11-15: one pixel *)
Definition curve_pixel (func : spline) (pix : list A) : res (list A) :=
  l <- get pix 0 ;; v <- interpolate func l ;; pix <- upd pix 0 v ;;
  b <- get pix 1 ;; pix <- upd pix 1 b ;; c <- get pix 2 ;; upd pix 2 c.
(** curves.rs:5-18 [base] *)
Definition base_curve (buf : opbuf A) : res (opbuf A) :=
  func <- spline_new base_xs base_ys ;; mutate_pixels 3 (curve_pixel func) buf.
End Colors.
