(** Model of src/decoders/ciff.rs: Canon's CIFF directories. *)
From Coq Require Import String ZArith List Bool.
From Verif Require Import Base Bytes Tiff.
Import ListNotations.
Local Open Scope Z_scope.

(** ciff.rs:8-22 [CiffTag] *)
Definition C_ColorInfo1 := 0x0032.   Definition C_MakeModel := 0x080a.
Definition C_ShotInfo := 0x102a.     Definition C_ColorInfo2 := 0x102c.
Definition C_WhiteBalance := 0x10a9. Definition C_SensorInfo := 0x1031.
Definition C_ImageInfo := 0x1810.    Definition C_DecoderTable := 0x1835.
Definition C_RawData := 0x2005.      Definition C_SubIFD := 0x300a.
Definition C_Exif := 0x300b.

(** ciff.rs:28-36 [CiffEntry] *)
Record centry := mkcentry { ce_tag : Z; ce_typ : Z; ce_count : Z; ce_bytesize : Z; ce_offset : Z; ce_data : list Z }.
(** ciff.rs:38-42 [CiffIFD] *)
Inductive cifd := mkcifd (entries : list (Z * centry)) (subs : list cifd).
Definition ci_entries (i : cifd) := let 'mkcifd x _ := i in x.
Definition ci_subs (i : cifd) := let 'mkcifd _ x := i in x.

Definition W_HEAPCCDR : list Z := [72; 69; 65; 80; 67; 67; 68; 82].
(** ciff.rs:44-46 [is_ciff] *)
Definition is_ciff (buf : list Z) : res bool := at_is buf 6 W_HEAPCCDR.

(** ciff.rs:125-137 [element_shift]; 0x8000 cannot occur *)
Definition element_shift (typ : Z) : Z :=
  if typ =? 0x1000 then 1
  else if (typ =? 0x1800) || (typ =? 0x2000) || (typ =? 0x2800) || (typ =? 0x3000) then 2 else 0.

(** ciff.rs:97-123 [CiffEntry::new] *)
Definition centry_new (buf : list Z) (value_data offset : Z) : res centry :=
  p <- LEu16 buf offset ;;
  let tag := Z.land p 0x3fff in
  let loc := Z.land p 0xc000 in
  let typ := Z.land p 0x3800 in
  '(bytesize, data_offset) <-
    (if loc =? 0 then
       a <- LEu32 buf (offset + 2) ;; b <- LEu32 buf (offset + 6) ;; Ok (a, b + value_data)
     else if loc =? 0x4000 then Ok (8, offset + 2)
     else Err "CIFF: Don't know about data location"%string) ;;
  data <- slice buf data_offset (data_offset + bytesize) ;;
  Ok (mkcentry tag typ (Z.shiftr bytesize (element_shift typ)) bytesize data_offset data).

Section Parse.
Context {M : Mode}.

(** ciff.rs:54-80 [CiffIFD::new]; [deeper] is [None] when [depth] is 10 or more *)
Definition cifd_body (deeper : option (list Z -> Z -> Z -> res cifd)) (buf : list Z) (start stop : Z) : res cifd :=
  e4 <- usub stop 4 ;;
  size <- LEu32 buf e4 ;;
  count <- LEu16 buf (start + size) ;;
  '(entries, subs) <- rfold (fun i '(entries, subs) =>
      en <- centry_new buf start (start + size + 2 + i * 10) ;;
      if (ce_typ en =? 0x2800) || (ce_typ en =? 0x3000) then
        match deeper with
        | None => Ok (entries, subs)
        | Some parse =>
            match parse buf (ce_offset en) (ce_offset en + ce_bytesize en) with
            | Ok i => Ok (entries, subs ++ [i])
            | Err _ => Ok (insert entries (ce_tag en) en, subs)
            | Panic => Panic
            | Loop => Loop
            end
        end
      else Ok (insert entries (ce_tag en) en, subs))
    (zrange 0 count) ([], []) ;;
  Ok (mkcifd entries subs).
(** [levels] is 10 - [depth]. *)
Fixpoint cifd_levels (levels : nat) (buf : list Z) (start stop : Z) : res cifd :=
  match levels with
  | O => cifd_body None buf start stop
  | S l => cifd_body (Some (fun buf a b => cifd_levels l buf a b)) buf start stop
  end.
(** ciff.rs:49-52 [new_file]: [buf] is the padded buffer, [size] the size of the
    file; the depth starts at 1. *)
Definition cifd_new_file (buf : list Z) (size : Z) : res cifd :=
  start <- LEu32 buf 2 ;; cifd_levels 9 buf start size.
End Parse.

(** ciff.rs:82-94 [find_entry] *)
Fixpoint cfind_entry (i : cifd) (tag : Z) : option centry :=
  let 'mkcifd entries subs := i in
  match lookup entries tag with
  | Some x => Some x
  | None =>
      (fix go (l : list cifd) : option centry :=
         match l with
         | [] => None
         | s :: t => match cfind_entry s tag with Some x => Some x | None => go t end
         end) subs
  end.

(** ciff.rs:143-150 [get_u32] *)
Definition cget_u32 (en : centry) (idx : Z) : res Z :=
  let typ := ce_typ en in
  if (typ =? 0x0000) || (typ =? 0x8000) then get (ce_data en) idx
  else if typ =? 0x1000 then LEu16 (ce_data en) (idx * 2)
  else if (typ =? 0x1800) || (typ =? 0x2000) || (typ =? 0x2800) || (typ =? 0x3000) then LEu32 (ce_data en) (idx * 4)
  else Panic.
(** ciff.rs:154 [get_force_u16] *)
Definition cget_force_u16 (en : centry) (idx : Z) : res Z := LEu16 (ce_data en) (idx * 2).

(** [String::from_utf8_lossy]: maximal wrong subsequences become U+FFFD. *)
Fixpoint utf8_lossy (fuel : nat) (l : list Z) : list Z :=
  match fuel with
  | O => []
  | S f =>
      match l with
      | [] => []
      | a :: t =>
          let bad := 0xfffd :: utf8_lossy f t in
          if a <? 0x80 then a :: utf8_lossy f t
          else if (0xc2 <=? a) && (a <=? 0xdf) then
            match t with
            | b :: t => if cont b then ((a - 0xc0) * 64 + (b - 0x80)) :: utf8_lossy f t else bad
            | _ => bad
            end
          else if (0xe0 <=? a) && (a <=? 0xef) then
            match t with
            | b :: t2 =>
                if cont b && (if a =? 0xe0 then 0xa0 <=? b else true) && (if a =? 0xed then b <=? 0x9f else true) then
                  match t2 with
                  | c :: t3 => if cont c then (((a - 0xe0) * 64 + (b - 0x80)) * 64 + (c - 0x80)) :: utf8_lossy f t3
                               else 0xfffd :: utf8_lossy f t2
                  | [] => [0xfffd]
                  end
                else bad
            | _ => bad
            end
          else if (0xf0 <=? a) && (a <=? 0xf4) then
            match t with
            | b :: t2 =>
                if cont b && (if a =? 0xf0 then 0x90 <=? b else true) && (if a =? 0xf4 then b <=? 0x8f else true) then
                  match t2 with
                  | c :: t3 =>
                      if cont c then
                        match t3 with
                        | d :: t4 => if cont d then ((((a - 0xf0) * 64 + (b - 0x80)) * 64 + (c - 0x80)) * 64 + (d - 0x80)) :: utf8_lossy f t4
                                     else 0xfffd :: utf8_lossy f t3
                        | [] => [0xfffd]
                        end
                      else 0xfffd :: utf8_lossy f t2
                  | [] => [0xfffd]
                  end
                else bad
            | _ => bad
            end
          else bad
      end
  end.
(** [split_terminator("\0")] *)
Fixpoint split_nul (l cur : list Z) : list (list Z) :=
  match l with
  | [] => match cur with [] => [] | _ => [rev cur] end
  | x :: t => if x =? 0 then rev cur :: split_nul t [] else split_nul t (x :: cur)
  end.
(** ciff.rs:139-141 [get_strings] *)
Definition cget_strings (en : centry) : list (list Z) := split_nul (utf8_lossy (length (ce_data en)) (ce_data en)) [].
