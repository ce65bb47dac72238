(** Property C08: parallel decoding does not depend on the thread schedule. *)
From Coq Require Import ZArith List Bool.
From Verif Require Import Base Threads Spec_Threads P_Threads.
Import ListNotations.
Local Open Scope Z_scope.

(** Whatever the interleaving of the workers of [decode_threaded], once all of
    them have ended the buffer is the one obtained by decoding the rows one
    after the other; and some worker has panicked exactly when the sequential
    decode panics. *)
Theorem C08_rows_any_schedule : forall (L : Type) w h closure (ws : list (worker L)) sched,
  0 < w -> 0 <= h -> length ws = Z.to_nat h ->
  (forall wk, In wk ws -> keeps_length wk) ->
  (forall i wk, nth_error ws i = Some wk -> implements wk (zeros w) (closure (zeros w) (Z.of_nat i))) ->
  let e := par_run (Z.to_nat w) ws sched (par_init ws (zeros (w * h))) in
  Forall finished (pstat e) ->
  match decode_threaded w h closure with
  | Ok img => pmem e = img /\ Forall (fun r => r = WDone) (pstat e)
  | Panic => Exists (fun r => r = WPanic) (pstat e)
  | _ => False
  end.
Proof. exact decode_threaded_any_schedule. Qed.
Print Assumptions C08_rows_any_schedule.

(** The same for blocks of [k] rows; the last block may be shorter. *)
Theorem C08_blocks_any_schedule : forall (L : Type) w h k closure (ws : list (worker L)) sched,
  0 < w -> 0 < k -> 0 <= h ->
  let blank := fun i : nat => zeros (Z.min (w * k) (w * h - w * k * Z.of_nat i)) in
  length ws = Z.to_nat ((h + k - 1) / k) ->
  (forall wk, In wk ws -> keeps_length wk) ->
  (forall i wk, nth_error ws i = Some wk -> implements wk (blank i) (closure (blank i) (Z.of_nat i * k))) ->
  let e := par_run (Z.to_nat (w * k)) ws sched (par_init ws (zeros (w * h))) in
  Forall finished (pstat e) ->
  match decode_threaded_multiline w h k closure with
  | Ok img => pmem e = img /\ Forall (fun r => r = WDone) (pstat e)
  | Panic => Exists (fun r => r = WPanic) (pstat e)
  | _ => False
  end.
Proof. exact decode_multiline_any_schedule. Qed.
Print Assumptions C08_blocks_any_schedule.

(** Any two complete executions end in the same state: same buffer, same
    workers panicked. *)
Theorem C08_two_schedules_agree : forall (L : Type) n (ws : list (worker L)), (0 < n)%nat ->
  (forall wk, In wk ws -> keeps_length wk) ->
  forall mem s1 s2,
  (length ws * n <= length mem + n)%nat -> (length mem <= length ws * n)%nat ->
  let e1 := par_run n ws s1 (par_init ws mem) in
  let e2 := par_run n ws s2 (par_init ws mem) in
  Forall finished (pstat e1) -> Forall finished (pstat e2) -> e1 = e2.
Proof. exact @par_schedule_independent. Qed.
Print Assumptions C08_two_schedules_agree.

(** A worker that writes one pixel per step; row 1 of three panics half way. *)
Definition pixel_worker (row : Z) (fails : bool) : worker Z := mkworker 0
  (fun col line =>
     if fails && (col =? 2) then (WPanic, line)
     else if col =? zlen line then (WDone, line)
     else (WRun (col + 1), upd_nat line (Z.to_nat col) (10 * row + col))).
Lemma pixel_worker_keeps : forall row fails, keeps_length (pixel_worker row fails).
Proof.
  intros row fails col line. cbn. destruct (fails && (col =? 2)); [reflexivity|].
  destruct (col =? zlen line); [reflexivity|]. apply P_Base.upd_nat_length.
Qed.
Example C08_rows_ex :
  let closure := fun (line : list Z) row => Ok (map (fun c => 10 * row + c) (zrange 0 (zlen line))) in
  let ws := [pixel_worker 0 false; pixel_worker 1 false] in
  (forall i wk, nth_error ws i = Some wk -> implements wk (zeros 3) (closure (zeros 3) (Z.of_nat i))) /\
  let e := par_run 3 ws [1; 0; 0; 1; 1; 0; 1; 0]%nat (par_init ws (zeros (3 * 2))) in
  Forall finished (pstat e) /\ pmem e = [0; 1; 2; 10; 11; 12] /\
  decode_threaded 3 2 closure = Ok [0; 1; 2; 10; 11; 12].
Proof.
  cbv zeta. split.
  - intros [|[|i]] wk H; cbn in H; try (injection H as <-; exists 4%nat; reflexivity).
    destruct i; discriminate.
  - split; [repeat constructor|]. split; reflexivity.
Qed.
Example C08_panic_ex :
  let ws := [pixel_worker 0 false; pixel_worker 1 true] in
  let e := par_run 3 ws [1; 0; 0; 1; 1; 0; 1; 0]%nat (par_init ws (zeros (3 * 2))) in
  Forall finished (pstat e) /\ Exists (fun r => r = WPanic) (pstat e).
Proof. cbv zeta. split; [repeat constructor|]. right. left. reflexivity. Qed.
