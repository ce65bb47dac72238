(** Clients of the bit readers: a client is a list of requests that are run one
    after the other on one reader.  The requests themselves are specified in
    Spec_Pump.v. *)
From Coq Require Import ZArith List Bool.
From Verif Require Import Base Pumps Spec_Pump.
Import ListNotations.
Local Open Scope Z_scope.

Section Client.
Context {M : Mode}.
Definition do_request (k : pkind) (p : pump) (r : request) : res (Z * pump) :=
  match r with
  | RPeek n => peek_bits k p (Z.of_nat n)
  | RGet n => get_bits k p (Z.of_nat n)
  | RPeekDrop n m =>
      '(v, p1) <- peek_bits k p (Z.of_nat n) ;;
      p2 <- consume_bits k p1 (Z.of_nat m) ;; Ok (v, p2)
  end.
Fixpoint do_requests (k : pkind) (p : pump) (rs : list request) : res (list Z * pump) :=
  match rs with
  | [] => Ok ([], p)
  | r :: t =>
      '(v, p1) <- do_request k p r ;;
      '(vs, p2) <- do_requests k p1 t ;; Ok (v :: vs, p2)
  end.
(** The values returned to the client by a fresh reader over [buf]. *)
Definition run_client (k : pkind) (buf : list Z) (rs : list request) : res (list Z) :=
  '(vs, _) <- do_requests k (pump_new buf) rs ;; Ok vs.
(** The same, followed by one sign-extended read of [n] bits. *)
Definition run_client_signed (k : pkind) (buf : list Z) (rs : list request) (n : nat) : res Z :=
  '(_, p) <- do_requests k (pump_new buf) rs ;;
  '(v, _) <- get_ibits_sextended k p (Z.of_nat n) ;; Ok v.
End Client.

(** src/decoders/mod.rs:73-86 [Buffer::new]: the content of a file is followed
    by 16 zero bytes.  Reading errors are not modelled. *)
Definition buffer_new (file : list Z) : list Z := file ++ zeros 16.
