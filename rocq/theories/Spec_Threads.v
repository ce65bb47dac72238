(** Specification vocabulary for parallel executions. *)
From Coq Require Import ZArith List.
From Verif Require Import Base Threads.
Import ListNotations.
Local Open Scope Z_scope.

(** The worker is not running any more. *)
Definition finished {L} (r : wresult L) : Prop := match r with WRun _ => False | _ => True end.

(** Worker [w], run alone on the chunk [blank], ends exactly as a closure whose
    outcome on that chunk is [out]: it returns with the same content, or it
    panics. *)
Definition implements {L} (w : worker L) (blank : list Z) (out : res (list Z)) : Prop :=
  match out with
  | Ok line => exists k, solo w k (WRun (wstart w)) blank = (WDone, line)
  | Panic => exists k line, solo w k (WRun (wstart w)) blank = (WPanic, line)
  | _ => False
  end.

(** A worker can write in its chunk but cannot change its length. *)
Definition keeps_length {L} (w : worker L) : Prop :=
  forall l c, length (snd (wstep w l c)) = length c.
