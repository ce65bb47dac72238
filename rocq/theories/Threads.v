(** Model of the row-parallel decoding helpers of src/decoders/basics.rs, and a
    small-step model of their execution by worker threads. *)
From Coq Require Import ZArith List Bool Arith.
From Verif Require Import Base.
Import ListNotations.
Local Open Scope Z_scope.

(** [slice.chunks(n)] / [chunks_mut(n)]: consecutive pieces of length [n], the
    last one may be shorter.  [fuel] is the length of the list. *)
Fixpoint chunks_aux {A} (fuel : nat) (n : nat) (l : list A) : list (list A) :=
  match fuel with
  | O => []
  | S fuel' =>
      match l with
      | [] => []
      | _ => firstn n l :: chunks_aux fuel' n (skipn n l)
      end
  end.
Definition chunks {A} (n : nat) (l : list A) : list (list A) := chunks_aux (length l) n l.

(** [iter.enumerate()] *)
Definition enumerate {A} (l : list A) : list (Z * A) := combine (zrange 0 (zlen l)) l.

(** basics.rs:83-91 [decode_threaded].  The closure receives its line and
    returns the modified line.  [par_chunks_mut(0)] divides by zero: panic.
    Rows are run one after the other here; see [par_step] below for the
    parallel execution. *)
Definition decode_threaded (width height : Z) (closure : list Z -> Z -> res (list Z)) : res (list Z) :=
  let out := zeros (width * height) in
  if width =? 0 then Panic else
  lines <- mapM (fun '(row, line) => closure line row)
                (enumerate (chunks (Z.to_nat width) out)) ;;
  Ok (concat lines).

(** basics.rs:93-101 [decode_threaded_multiline] *)
Definition decode_threaded_multiline (width height lines : Z)
    (closure : list Z -> Z -> res (list Z)) : res (list Z) :=
  let out := zeros (width * height) in
  if width * lines =? 0 then Panic else
  ls <- mapM (fun '(row, line) => closure line (row * lines))
             (enumerate (chunks (Z.to_nat (width * lines)) out)) ;;
  Ok (concat ls).

(** * Small-step execution of [par_chunks_mut(..).enumerate().for_each(..)].

    A worker runs the closure of one chunk.  It has a local state and can only
    read and write its own chunk (the borrow given by par_chunks_mut); one call
    of [wstep] is an arbitrary amount of its work between two preemptions. *)
Inductive wresult (L : Type) :=
| WRun (l : L)      (* still running *)
| WDone             (* closure returned *)
| WPanic.           (* closure panicked *)
Arguments WRun {L} l.
Arguments WDone {L}.
Arguments WPanic {L}.

Record worker (L : Type) := mkworker {
  wstart : L;
  wstep : L -> list Z -> wresult L * list Z
}.
Arguments mkworker {L}.
Arguments wstart {L}.
Arguments wstep {L}.

(** Shared state: the whole output buffer and the status of every worker.
    Worker [i] owns the positions [i*n .. min((i+1)*n, len)) of the buffer. *)
Record pstate (L : Type) := mkpstate { pmem : list Z; pstat : list (wresult L) }.
Arguments mkpstate {L}.
Arguments pmem {L}.
Arguments pstat {L}.

(** Replace the part of [mem] that starts at [off] by [c]. *)
Definition splice (mem : list Z) (off : nat) (c : list Z) : list Z :=
  firstn off mem ++ c ++ skipn (off + length c) mem.

(** One scheduling step: worker [i] runs for a while. *)
Definition par_step {L} (n : nat) (ws : list (worker L)) (i : nat) (s : pstate L) : pstate L :=
  match nth_error ws i, nth_error (pstat s) i with
  | Some w, Some (WRun l) =>
      let c := firstn n (skipn (i * n) (pmem s)) in
      let '(r, c') := wstep w l c in
      mkpstate (splice (pmem s) (i * n) c') (upd_nat (pstat s) i r)
  | _, _ => s
  end.
Definition par_run {L} (n : nat) (ws : list (worker L)) (sched : list nat) (s : pstate L) : pstate L :=
  fold_left (fun s i => par_step n ws i s) sched s.
Definition par_init {L} (ws : list (worker L)) (mem : list Z) : pstate L :=
  mkpstate mem (map (fun w => WRun (wstart w)) ws).

(** A worker running alone on its chunk, for [fuel] steps. *)
Fixpoint solo {L} (w : worker L) (fuel : nat) (r : wresult L) (c : list Z) : wresult L * list Z :=
  match fuel, r with
  | S fuel', WRun l => let '(r', c') := wstep w l c in solo w fuel' r' c'
  | _, _ => (r, c)
  end.
